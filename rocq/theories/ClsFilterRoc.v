(* ROCAUC of filtered classification evaluators. *)
From Verif Require Import Prelude Counting CacheModel CacheSpec CacheProofs SortProofs ClsModel ClsSpec ClsLabelProofs ClsProofs ClsConfProofs ClsLemmas ClsMore
  RocModel RocProofs RocMain RocCurve FlowModel FlowProofs FlowMore ClsFilterModel ClsFilterSpec ClsFilterProofs ClsFilterCounts ClsFilterMain DetFilterMore.
From Coq Require Import QArith.
From Coq Require String.
Local Open Scope nat_scope.
Local Open Scope list_scope.

(* ------------------------------------------------------------------ *)
(** * The outcomes of a label *)

Lemma outcomes_reduced w l cs :
  outcomes l (reduced w cs) = concat (map (fun c => if w c l then map (fun p => (snd p, String.eqb (c_groundtruth c) l))
                                            (filter (fun p => String.eqb (fst p) l) (candidates c)) else []) cs).
Proof.
  unfold outcomes, reduced. rewrite map_map.
  assert (E : forall c, filter (fun p => String.eqb (fst p) l) (candidates (viewed w c))
              = if w c l then filter (fun p : String.string * Z => String.eqb (fst p) l) (candidates c) else []).
  { intros c. rewrite viewed_candidates. generalize (candidates c). induction l0 as [|[a s] t IH]; [destruct (w c l); reflexivity|].
    cbn [filter fst]. destruct (String.eqb_spec a l) as [->|N].
    - destruct (w c l); cbn [filter fst]; [rewrite String.eqb_refl, IH; reflexivity|exact IH].
    - destruct (w c a); cbn [filter fst]; [|exact IH]. destruct (String.eqb_spec a l); [congruence|exact IH]. }
  induction cs as [|c t IH]; [reflexivity|]. cbn [filter map concat]. destruct (visible w c) eqn:Ev; cbn [map concat].
  - rewrite IH, E. cbn [viewed c_groundtruth]. destruct (w c l); reflexivity.
  - rewrite IH. destruct (w c l) eqn:Ew; [|reflexivity].
    assert (En : filter (fun p : String.string * Z => String.eqb (fst p) l) (candidates c) = []).
    { destruct (filter _ (candidates c)) as [|[a s] r] eqn:Ef; [reflexivity|]. exfalso.
      assert (Hin : In (a, s) (filter (fun p : String.string * Z => String.eqb (fst p) l) (candidates c))) by (rewrite Ef; left; reflexivity).
      apply filter_In in Hin. destruct Hin as [Hin Ha]. cbn in Ha. apply String.eqb_eq in Ha. subst a.
      apply not_true_iff_false in Ev. apply Ev. unfold visible. apply existsb_exists. exists l. split; [|exact Ew].
      unfold candidates in Hin. apply in_combine_l in Hin. exact Hin. }
    rewrite En. reflexivity.
Qed.

Section Rows.
  Variable cs : list classification.
  Hypothesis Hacc : Forall accepted cs.
  Variable w : cview.
  Variable e : ceval.
  Hypothesis G : cgood cs w e.
  Local Notation L := (labels_of cs).

  Lemma label_rows_kept d c l i : nth_error cs d = Some c -> nth_error L i = Some l ->
    map outc (of_label i (map project (filter (kept_row cs w) (canon_rows L d c))))
    = if w c l then map (fun p => (snd p, String.eqb (c_groundtruth c) l)) (filter (fun p => String.eqb (fst p) l) (candidates c)) else [].
  Proof.
    intros Hc Hi. pose proof (nth_error_In _ _ Hi) as Hl. rewrite <- (outcomes_rows cs d c l i Hc Hi).
    unfold of_label. rewrite !filter_map_comm, !map_map.
    assert (E : forall rows, (forall r, In r rows -> In r (canon_rows L d c)) ->
       filter (fun r => (i_label (project r) =? Z.of_nat i)%Z) (filter (kept_row cs w) rows)
       = if w c l then filter (fun r => (i_label (project r) =? Z.of_nat i)%Z) rows else []).
    { induction rows as [|r t IH]; intros Hsub; [destruct (w c l); reflexivity|].
      assert (Hr : In r (canon_rows L d c)) by (apply Hsub; left; reflexivity).
      assert (IH' := IH (fun x Hx => Hsub x (or_intror Hx))). cbn [filter]. rewrite (kept_row_canon cs w d c r Hc Hr).
      assert (El : (i_label (project r) =? Z.of_nat i)%Z = String.eqb (r_pd_label r) l).
      { cbn [project i_label]. rewrite <- (idx_of_nth L l i (labels_of_NoDup cs) Hi). apply (pd_eqb cs d c r l Hc Hr Hl). }
      rewrite El. destruct (String.eqb_spec (r_pd_label r) l) as [Ep|N].
      - rewrite Ep. destruct (w c l); cbn [filter]; [|exact IH']. rewrite El, IH'. reflexivity.
      - destruct (w c (r_pd_label r)); cbn [filter]; [rewrite El|]; exact IH'. }
    rewrite E by auto. destruct (w c l); reflexivity.
  Qed.

  Lemma view_outcomes l i : nth_error L i = Some l ->
    Permutation (map outc (of_label i (map project (concat (ce_tables e))))) (outcomes l (reduced w cs)).
  Proof.
    intros Hi.
    transitivity (map outc (of_label i (map project (filter (kept_row cs w) (concat (mapi (canon_rows L) cs)))))).
    { apply Permutation_map. unfold of_label. apply Permutation_filter, Permutation_map. rewrite <- (W_writes cs Hacc). apply (cg_rows _ _ _ G). }
    rewrite outcomes_reduced.
    match goal with |- Permutation ?a ?b => replace a with b; [reflexivity|] end. symmetry.
    rewrite filter_concat, concat_map. unfold of_label. rewrite filter_concat, concat_map, !map_map.
    f_equal. unfold mapi.
    assert (H : forall cs' k, (forall j, nth_error cs' j = nth_error cs (k + j)) ->
      map (fun x => map outc (filter (fun r => (i_label r =? Z.of_nat i)%Z) (map project (filter (kept_row cs w) x)))) (mapi_from (canon_rows L) k cs')
      = map (fun c => if w c l then map (fun p => (snd p, String.eqb (c_groundtruth c) l)) (filter (fun p => String.eqb (fst p) l) (candidates c)) else []) cs').
    { induction cs' as [|c t IH]; intros k Hn; [reflexivity|]. cbn [mapi_from map]. f_equal.
      - apply label_rows_kept; [|exact Hi]. specialize (Hn 0). rewrite Nat.add_0_r in Hn. symmetry. exact Hn.
      - apply IH. intros j. specialize (Hn (S j)). cbn [nth_error] in Hn. rewrite Hn. f_equal. lia. }
    apply H. reflexivity.
  Qed.
End Rows.

(* ------------------------------------------------------------------ *)
(** * The curve of a label depends on its outcomes only *)

Lemma emit_outc st r r' : outc r = outc r' -> emit st r = emit st r' /\ bump st r = bump st r'.
Proof. destruct r, r'. unfold outc, emit, bump. cbn. intros E. injection E as -> ->. auto. Qed.
Lemma scan_outc rows : forall rows' st, map outc rows = map outc rows' -> scan st rows = scan st rows'.
Proof.
  induction rows as [|r t IH]; intros [|r' t'] st E; try discriminate; [reflexivity|]. cbn [map] in E.
  apply (f_equal (fun l => (hd (0%Z, true) l, tl l))) in E. cbn [hd tl] in E. injection E as E1 E2 E3.
  destruct (emit_outc st r r') as [H1 H2]; [unfold outc; congruence|]. cbn [scan]. rewrite H1, H2, (IH t' _ E3). reflexivity.
Qed.
Lemma label_curve_outc rows rows' : map outc rows = map outc rows' -> label_curve rows = label_curve rows'.
Proof. intros E. unfold label_curve. rewrite (scan_outc rows rows' rocst0 E). reflexivity. Qed.

(* the order of the intermediate cache, on outcomes *)
Definition out_le (p q : Z * bool) : Prop := (fst q < fst p)%Z \/ (fst p = fst q /\ (snd p = true -> snd q = true)).
Lemma out_le_antisym p q : out_le p q -> out_le q p -> p = q.
Proof.
  destruct p as [a b], q as [a' b']. unfold out_le. cbn. intros [H|(H & I)] [H'|(H' & I')]; try lia. subst a'. f_equal.
  destruct b, b'; try reflexivity; [discriminate (I eq_refl)|discriminate (I' eq_refl)].
Qed.
Lemma sorted_outc rows : StronglySorted (leP (row_leb roc_sorting)) rows -> StronglySorted out_le (map outc rows).
Proof.
  induction 1 as [|r t Hs IH Hf]; cbn; constructor; auto. rewrite Forall_forall in *. intros x Hx. apply in_map_iff in Hx.
  destruct Hx as (r' & <- & Hr'). specialize (Hf r' Hr'). unfold leP in Hf. cbn in Hf. unfold out_le, outc. cbn.
  destruct (Z.eqb_spec (i_score r) (i_score r')) as [E|N].
  - right. split; [exact E|]. destruct (i_match r), (i_match r'); auto; cbn in Hf; discriminate.
  - left. lia.
Qed.
Lemma sorted_perm_eq (a : list (Z * bool)) : forall b, StronglySorted out_le a -> StronglySorted out_le b -> Permutation a b -> a = b.
Proof.
  induction a as [|x t IH]; intros b Ha Hb Hp; [apply Permutation_nil in Hp; auto|].
  destruct b as [|y s]; [apply Permutation_sym, Permutation_nil in Hp; discriminate|].
  inversion Ha as [|? ? Ha1 Ha2]; inversion Hb as [|? ? Hb1 Hb2]; subst. rewrite Forall_forall in Ha2, Hb2.
  assert (x = y).
  { assert (Hx : In x (y :: s)) by (apply (Permutation_in _ Hp); left; reflexivity).
    assert (Hy : In y (x :: t)) by (apply (Permutation_in _ (Permutation_sym Hp)); left; reflexivity).
    destruct Hx as [Hx|Hx]; [auto|]. destruct Hy as [Hy|Hy]; [auto|]. apply out_le_antisym; auto. }
  subst y. f_equal. apply IH; auto. eapply Permutation_cons_inv; eauto.
Qed.
Section Value.
  Variable cs : list classification.
  Hypothesis Hdist : Forall distinct_candidates cs.
  Variable w : cview.
  Variable e : ceval.
  Hypothesis He : cls_evaluator cs w e.
  Local Notation L := (labels_of cs).

  Lemma ev_curve l i : has_number e l i -> exists rows,
    points_of i (concat (ce_curve e)) = label_curve rows /\ StronglySorted out_le (map outc rows)
    /\ Permutation (map outc rows) (outcomes l (reduced w cs)) /\ descending rows.
  Proof.
    intros Hi. pose proof (ev_good cs Hdist w e He) as G. apply (cg_labels _ _ _ G) in Hi.
    destruct (cg_curve _ _ _ G) as (inter & Hs & Hc). exists (of_label i (concat inter)). split; [|split; [|split]].
    - rewrite Hc. apply (curve_points cs inter _ (cg_keys _ _ _ G) i l Hi).
    - apply sorted_outc. unfold of_label. apply StronglySorted_filter. apply Hs.
    - rewrite <- (view_outcomes cs (ev_acc cs w e He) w e G l i Hi). apply Permutation_map. unfold of_label. apply Permutation_filter. symmetry.
      apply (stable_sort_perm (row_leb roc_sorting) (row_leb_total roc_sorting) (row_leb_trans roc_sorting)). exact Hs.
    - unfold of_label. apply descending_filter. eapply sorted_descending; eauto.
  Qed.

  Definition vgts (l : String.string) : nat := countb (fun c => visible w c && String.eqb (c_groundtruth c) l) cs.

  Lemma ev_rocauc l i : has_number e l i -> origin_kept i (ce_curve e) \/ unmixed_top (outcomes l (reduced w cs)) -> exists rows v,
    nth_error (cls_rocauc e) i = Some v
    /\ (v == label_area (Z.of_nat (vgts l)) (Z.of_nat (length (outcomes l (reduced w cs)))) (label_curve rows))%Q
    /\ StronglySorted out_le (map outc rows) /\ Permutation (map outc rows) (outcomes l (reduced w cs)) /\ descending rows.
  Proof.
    intros Hi Ho. destruct (ev_curve l i Hi) as (rows & Hc & Hs & Hp & Hd). exists rows.
    pose proof (ev_acc cs w e He) as Ha.
    pose proof Hi as Hi'. apply (ev_labels cs Hdist w e He) in Hi'. destruct (nth_label cs i l Hi') as (Hlt & Hl & Ei).
    eexists. split; [|split; [|auto]].
    { unfold cls_rocauc, compute_rocauc. rewrite nth_error_map, nth_error_seq_lt by (rewrite (ev_n cs Hdist w e He); exact Hlt). reflexivity. }
    cbn beta. rewrite (area_safe _ _ i (ce_curve e) rows Hd (match Ho with or_introl H => or_introl H | or_intror H => or_intror (unmixed_perm _ _ (Permutation_sym Hp) H) end) Hc). cbn [Nat.add]. rewrite Ei.
    rewrite (ev_gt_count cs Hdist w e He l Hl), (ev_pd_count cs Hdist w e He l Hl). unfold vgts.
    rewrite (outcomes_length (reduced w cs) (reduced_accepted w cs Ha) (reduced_distinct w cs Ha Hdist)).
    rewrite (reduced_count (fun c => smem l (c_predictions c)) (fun c => smem l (c_predictions (viewed w c))) w cs); [reflexivity|auto|].
    intros c Hin Hv. rewrite invisible_predictions; auto. rewrite Forall_forall in Ha. auto.
  Qed.
End Value.

(* two evaluators with the same remaining outcomes of a label report the same value *)
Theorem same_rocauc cs w e cs' w' e' l i i' :
  Forall distinct_candidates cs -> Forall distinct_candidates cs' -> cls_evaluator cs w e -> cls_evaluator cs' w' e' ->
  has_number e l i -> has_number e' l i' ->
  origin_kept i (ce_curve e) \/ unmixed_top (outcomes l (reduced w cs)) -> origin_kept i' (ce_curve e') \/ unmixed_top (outcomes l (reduced w' cs')) ->
  Permutation (outcomes l (reduced w cs)) (outcomes l (reduced w' cs')) -> vgts cs w l = vgts cs' w' l ->
  exists v v', nth_error (cls_rocauc e) i = Some v /\ nth_error (cls_rocauc e') i' = Some v' /\ (v == v')%Q.
Proof.
  intros Hd Hd' He He' Hi Hi' Ho Ho' Hp Hg.
  destruct (ev_rocauc cs Hd w e He l i Hi Ho) as (rows & v & E & V & S & P & _).
  destruct (ev_rocauc cs' Hd' w' e' He' l i' Hi' Ho') as (rows' & v' & E' & V' & S' & P' & _).
  exists v, v'. split; [exact E|]. split; [exact E'|]. rewrite V, V', Hg, (Permutation_length Hp).
  rewrite (label_curve_outc rows rows'); [reflexivity|]. apply sorted_perm_eq; auto. rewrite P, P'. exact Hp.
Qed.

Lemma viewed_all c : accepted c -> viewed all_kept c = c.
Proof.
  intros [_ Hl]. unfold viewed, all_kept. destruct c as [u g ps ss]. unfold candidates. cbn in *.
  assert (E : filter (fun _ : String.string * Z => true) (combine ps ss) = combine ps ss) by (apply filter_true). rewrite E. clear E. f_equal.
  - revert ss Hl. induction ps as [|a t IH]; intros [|s ss] H; try discriminate; [reflexivity|]. cbn. f_equal. apply IH. cbn in H. lia.
  - revert ss Hl. induction ps as [|a t IH]; intros [|s ss] H; try discriminate; [reflexivity|]. cbn. f_equal. apply IH. cbn in H. lia.
Qed.
Lemma reduced_all cs : Forall accepted cs -> reduced all_kept cs = cs.
Proof.
  induction 1 as [|c t Hc _ IH]; [reflexivity|]. unfold reduced in *. cbn [filter].
  assert (E : visible all_kept c = true). { unfold visible. destruct Hc as [Hne _]. destruct (c_predictions c); [congruence|reflexivity]. }
  rewrite E. cbn [map]. rewrite IH, viewed_all by exact Hc. reflexivity.
Qed.

Section Reduction.
  Variable cs : list classification.
  Hypothesis Hdist : Forall distinct_candidates cs.
  Variables (w : cview) (e e' : ceval).
  Hypothesis He : cls_evaluator cs w e.
  Hypothesis He' : cls_evaluator (reduced w cs) all_kept e'.

  Lemma rd_acc : Forall accepted cs.
  Proof. exact (ev_acc cs w e He). Qed.
  Lemma rd_dist : Forall distinct_candidates (reduced w cs).
  Proof. apply reduced_distinct; [exact rd_acc|exact Hdist]. Qed.
  Lemma rd_gts l : vgts (reduced w cs) all_kept l = vgts cs w l.
  Proof.
    unfold vgts. apply reduced_count.
    - intros c Hc Hv. cbn [viewed c_groundtruth]. rewrite (red_visible cs rd_acc w c Hc Hv), Hv. reflexivity.
    - intros c _ Hv. rewrite Hv. reflexivity.
  Qed.
  Theorem reduced_rocauc l i i' : has_number e l i -> has_number e' l i' ->
    (origin_kept i (ce_curve e) /\ origin_kept i' (ce_curve e')) \/ unmixed_top (outcomes l (reduced w cs)) ->
    exists v v', nth_error (cls_rocauc e) i = Some v /\ nth_error (cls_rocauc e') i' = Some v' /\ (v == v')%Q.
  Proof.
    intros Hi Hi' Ho. apply (same_rocauc cs w e (reduced w cs) all_kept e' l i i'); auto using rd_dist.
    - tauto.
    - rewrite reduced_all by (apply reduced_accepted, rd_acc). tauto.
    - rewrite reduced_all by (apply reduced_accepted, rd_acc). reflexivity.
    - symmetry. apply rd_gts.
  Qed.
End Reduction.

Section Absent.
  Variable cs : list classification.
  Hypothesis Hdist : Forall distinct_candidates cs.
  Variables (w : cview) (e : ceval).
  Hypothesis He : cls_evaluator cs w e.
  (* a label without remaining candidates or without remaining ground truths reports 0,
     whatever the files *)
  Theorem absent_rocauc l i : has_number e l i ->
    outcomes l (reduced w cs) = [] \/ vgts cs w l = 0 \/ vgts cs w l = length (outcomes l (reduced w cs)) ->
    exists v, nth_error (cls_rocauc e) i = Some v /\ (v == 0)%Q.
  Proof.
    intros Hi H. pose proof (ev_acc cs w e He) as Ha.
    apply (ev_labels cs Hdist w e He) in Hi. destruct (nth_label cs i l Hi) as (Hlt & Hl & Ei).
    eexists. split.
    { unfold cls_rocauc, compute_rocauc. rewrite nth_error_map, nth_error_seq_lt by (rewrite (ev_n cs Hdist w e He); exact Hlt). reflexivity. }
    cbn beta. apply rocauc_degenerate. cbn [Nat.add]. rewrite Ei.
    rewrite (ev_gt_count cs Hdist w e He l Hl), (ev_pd_count cs Hdist w e He l Hl). fold (vgts cs w l).
    rewrite (outcomes_length (reduced w cs) (reduced_accepted w cs Ha) (reduced_distinct w cs Ha Hdist)) in H.
    rewrite (reduced_count (fun c => smem l (c_predictions c)) (fun c => smem l (c_predictions (viewed w c))) w cs) in H; [|auto|].
    2: { intros c Hin Hv. rewrite invisible_predictions; auto. rewrite Forall_forall in Ha. auto. }
    destruct H as [H|[H|H]]; [left|right; left|right; right]; try lia.
    apply (f_equal (@length _)) in H. cbn in H.
    rewrite (outcomes_length (reduced w cs) (reduced_accepted w cs Ha) (reduced_distinct w cs Ha Hdist)) in H.
    rewrite (reduced_count (fun c => smem l (c_predictions c)) (fun c => smem l (c_predictions (viewed w c))) w cs) in H; [lia|auto|].
    intros c Hin Hv. rewrite invisible_predictions; auto. rewrite Forall_forall in Ha. auto.
  Qed.
End Absent.

Lemma absent_outcomes w cs l : Forall accepted cs -> ~ In l (labels_of (reduced w cs)) -> outcomes l (reduced w cs) = [].
Proof.
  intros Ha Hn. destruct (outcomes l (reduced w cs)) as [|o t] eqn:E; [reflexivity|]. exfalso. apply Hn.
  assert (Hin : In o (outcomes l (reduced w cs))) by (rewrite E; left; reflexivity).
  unfold outcomes in Hin. apply in_concat in Hin. destruct Hin as (x & Hx & Ho). apply in_map_iff in Hx. destruct Hx as (c & <- & Hc).
  apply in_map_iff in Ho. destruct Ho as (p & _ & Hp). apply filter_In in Hp. destruct Hp as [Hp He]. apply String.eqb_eq in He. subst l.
  exact (labels_of_pd (reduced w cs) c p Hc Hp).
Qed.

Lemma countb_first {A} (f : A -> bool) x t : countb f (x :: t) = (if f x then 1 else 0) + countb f t.
Proof. unfold countb. cbn. destruct (f x); reflexivity. Qed.

Section Formula.
  Variable cs : list classification.
  Hypothesis Hdist : Forall distinct_candidates cs.
  Variables (w : cview) (e : ceval).
  Hypothesis He : cls_evaluator cs w e.
  Local Notation o l := (outcomes l (reduced w cs)).

  (* the value in general: the pairs among the remaining candidates over the products of
     the counts the code uses *)
  Theorem general_rocauc l i : has_number e l i -> origin_kept i (ce_curve e) \/ unmixed_top (o l) -> top_nonzero (o l) ->
    let G := Z.of_nat (vgts cs w l) in let N := ((Z.of_nat (length (o l)) - G) mod 2 ^ 64)%Z in
    (0 < G)%Z -> (0 < N)%Z ->
    exists v, nth_error (cls_rocauc e) i = Some v /\ (v == inject_Z (twice_mann_whitney (o l)) / (2 * inject_Z N * inject_Z G))%Q.
  Proof.
    intros Hi Ho Ht G N HG HN. destruct (ev_rocauc cs Hdist w e He l i Hi Ho) as (rows & v & E & V & _ & P & D).
    exists v. split; [exact E|]. rewrite V. clear V E. unfold label_area. fold G.
    destruct (Z.of_nat (length (o l)) =? 0)%Z eqn:Hpd.
    - apply Z.eqb_eq in Hpd. destruct (o l) as [|x t]; [|cbn in Hpd; lia]. cbn. unfold Qdiv. ring.
    - rewrite (trap_area2 G _ (label_curve rows) HN HG). fold N.
      destruct rows as [|r t]; [apply Permutation_nil in P; rewrite P in Hpd; discriminate|].
      assert (Hne : i_score r <> 0%Z).
      { inversion D as [|? ? _ Hf]; subst. rewrite Forall_forall in Hf. destruct Ht as [(x & Hx & H0)|Hall].
        - apply (Permutation_in _ (Permutation_sym P)) in Hx. apply in_map_iff in Hx.
          destruct Hx as (r' & <- & Hr'). cbn in H0. destruct Hr' as [<-|Hr']; [lia|]. apply Hf in Hr'. lia.
        - assert (In (outc r) (o l)) by (apply (Permutation_in _ P); left; reflexivity).
          apply Hall in H. cbn in H. lia. }
      destruct (label_curve_area (r :: t) r t eq_refl D Hne) as (mid & _ & _ & _ & Harea & _).
      rewrite Harea, (mw_perm _ _ P). reflexivity.
  Qed.

  (* SPEC: the ground truths [l] of the remaining datums keep their candidate *)
  Definition keeps_truth (l : String.string) : Prop :=
    forall c, In c cs -> visible w c = true -> c_groundtruth c = l -> In l (c_predictions (viewed w c)).

  Lemma kept_positives l : keeps_truth l -> length (pos_of (o l)) = vgts cs w l.
  Proof.
    intros Hk. pose proof (ev_acc cs w e He) as Ha. rewrite outcomes_reduced. unfold vgts.
    revert Ha Hdist Hk. clear He. unfold keeps_truth. induction cs as [|c t IH]; intros Ha Hdist' Hk; [reflexivity|].
    inversion Ha as [|? ? Hac Hat]; inversion Hdist' as [|? ? Hdc Hdt]; subst.
    cbn [map concat]. unfold pos_of in *. rewrite filter_app, map_app, app_length, countb_first.
    rewrite IH by (solve [auto] || (intros c' H'; apply Hk; right; exact H')).
    f_equal. pose proof (one_candidate c l Hac Hdc) as H1. specialize (Hk c (or_introl eq_refl)).
    destruct (String.eqb_spec (c_groundtruth c) l) as [Eg|Ng].
    - rewrite andb_true_r. destruct (visible w c) eqn:Ev.
      + specialize (Hk eq_refl Eg). cbn [viewed c_predictions] in Hk. apply in_map_iff in Hk. destruct Hk as (p & Ep & Hp).
        apply filter_In in Hp. destruct Hp as [Hp Hw]. rewrite Ep in Hw. rewrite Hw.
        rewrite map_length. rewrite filter_map_comm. cbn [snd]. rewrite filter_true, map_length, H1.
        assert (Hin : In l (c_predictions c)). { unfold candidates in Hp. destruct p as [a s]. cbn in Ep. subst a. apply in_combine_l in Hp. exact Hp. }
        apply smem_In in Hin. rewrite Hin. reflexivity.
      + destruct (w c l) eqn:Ew; [|reflexivity]. rewrite map_length, filter_map_comm. cbn [snd]. rewrite filter_true, map_length, H1.
        destruct (smem l (c_predictions c)) eqn:Es; [|reflexivity]. exfalso. apply smem_In in Es.
        assert (visible w c = true) by (apply existsb_exists; exists l; auto). congruence.
    - rewrite andb_false_r. destruct (w c l); [|reflexivity]. rewrite map_length, filter_map_comm. cbn [snd].
      generalize (filter (fun p => String.eqb (fst p) l) (candidates c)). induction l0 as [|x s IHs]; [reflexivity|exact IHs].
  Qed.

  (* when the ground truths of the label keep their candidates: Mann-Whitney, in [0,1] *)
  Theorem covered_rocauc l i : has_number e l i -> origin_kept i (ce_curve e) \/ unmixed_top (o l) -> top_nonzero (o l) -> keeps_truth l ->
    (Z.of_nat (length cs) < 2 ^ 64)%Z -> pos_of (o l) <> [] -> neg_of (o l) <> [] ->
    exists v, nth_error (cls_rocauc e) i = Some v
      /\ (v == inject_Z (twice_mann_whitney (o l)) / (2 * inject_Z (Z.of_nat (length (neg_of (o l)))) * inject_Z (Z.of_nat (length (pos_of (o l))))))%Q
      /\ (0 <= v <= 1)%Q.
  Proof.
    intros Hi Ho Ht Hk Hsz Hp Hn. pose proof (ev_acc cs w e He) as Ha. pose proof (kept_positives l Hk) as EG.
    pose proof (pos_neg_length (o l)) as Hpn.
    assert (Hlen : length (o l) <= length cs).
    { rewrite (outcomes_length (reduced w cs) (reduced_accepted w cs Ha) (reduced_distinct w cs Ha Hdist)).
      pose proof (countb_le_length (fun c => smem l (c_predictions c)) (reduced w cs)). unfold reduced in *. rewrite map_length in H.
      pose proof (countb_le_length (visible w) cs). unfold countb in H0. lia. }
    assert (Hp1 : 0 < length (pos_of (o l))) by (destruct (pos_of (o l)); [congruence|cbn; lia]).
    assert (Hn1 : 0 < length (neg_of (o l))) by (destruct (neg_of (o l)); [congruence|cbn; lia]).
    assert (Hmod : ((Z.of_nat (length (o l)) - Z.of_nat (vgts cs w l)) mod 2 ^ 64)%Z = Z.of_nat (length (neg_of (o l)))).
    { rewrite Z.mod_small by lia. lia. }
    destruct (general_rocauc l i Hi Ho Ht) as (v & E & V); [lia|rewrite Hmod; lia|].
    exists v. split; [exact E|]. rewrite Hmod in V. rewrite <- EG in V. split; [exact V|].
    rewrite V. pose proof (mw_bounds (o l)) as B. clear V E v Hmod.
    set (P := length (pos_of (o l))) in *. set (N := length (neg_of (o l))) in *.
    assert (D : (2 * inject_Z (Z.of_nat N) * inject_Z (Z.of_nat P) == inject_Z (2 * Z.of_nat N * Z.of_nat P))%Q).
    { rewrite !inject_Z_mult. reflexivity. }
    rewrite D. assert (0 < 2 * Z.of_nat N * Z.of_nat P)%Z by nia.
    split.
    - apply Qle_shift_div_l; [change 0%Q with (inject_Z 0); rewrite <- Zlt_Qlt; lia|].
      rewrite Qmult_0_l. change 0%Q with (inject_Z 0). rewrite <- Zle_Qle. lia.
    - apply Qle_shift_div_r; [change 0%Q with (inject_Z 0); rewrite <- Zlt_Qlt; lia|].
      rewrite Qmult_1_l. rewrite <- Zle_Qle. lia.
  Qed.
End Formula.

(* ------------------------------------------------------------------ *)
(** * The mean *)

Lemma mean_sum l q : mean l = Some q -> (q * inject_Z (Z.of_nat (length l)) == qsum l)%Q.
Proof.
  unfold mean. destruct l as [|a l]; [discriminate|]. intros E. injection E as <-. rewrite Qmult_comm. apply Qmult_div_r. unfold Qeq. cbn. lia.
Qed.
Lemma qsum_nth (l : list Q) (g : String.string -> Q) (M : list String.string) : length l = length M ->
  (forall i x, nth_error M i = Some x -> exists v, nth_error l i = Some v /\ (v == g x)%Q) -> (qsum l == qsum (map g M))%Q.
Proof.
  revert M. induction l as [|a l IH]; intros [|x M] H F; try discriminate; [reflexivity|].
  change (a + qsum l == g x + qsum (map g M))%Q. rewrite (IH M); [|cbn in H; lia|intros i y Hy; exact (F (S i) y Hy)].
  destruct (F 0 x eq_refl) as (v & E & V). cbn in E. injection E as ->. rewrite V. reflexivity.
Qed.
Theorem reduced_mean cs w e e' m m' : Forall distinct_candidates cs -> cls_evaluator cs w e -> cls_evaluator (reduced w cs) all_kept e' ->
  (forall l i i', has_number e l i -> has_number e' l i' ->
     (origin_kept i (ce_curve e) /\ origin_kept i' (ce_curve e')) \/ unmixed_top (outcomes l (reduced w cs))) ->
  mean (cls_rocauc e) = Some m -> mean (cls_rocauc e') = Some m' ->
  (m * inject_Z (Z.of_nat (length (ce_labels e))) == m' * inject_Z (Z.of_nat (length (ce_labels e'))))%Q.
Proof.
  intros Hd He He' Ho Hm Hm'. pose proof (ev_acc cs w e He) as Ha. pose proof (rd_dist cs Hd w e He) as Hd'.
  apply mean_sum in Hm. apply mean_sum in Hm'. unfold cls_rocauc, compute_rocauc in Hm, Hm'. rewrite map_length, seq_length in Hm, Hm'.
  rewrite Hm, Hm'. fold (compute_rocauc (length (ce_labels e)) (ce_tables e) (ce_curve e)) (compute_rocauc (length (ce_labels e')) (ce_tables e') (ce_curve e')).
  fold (cls_rocauc e) (cls_rocauc e').
  pose proof (ev_n cs Hd w e He) as EN. pose proof (ev_n _ Hd' _ e' He') as EN'.
  set (L := labels_of cs) in *. set (L' := labels_of (reduced w cs)) in *.
  set (g := fun l => match index_of l L' with Some k => nth k (cls_rocauc e') 0%Q | None => 0%Q end).
  assert (Len' : length (cls_rocauc e') = length L') by (unfold cls_rocauc, compute_rocauc; rewrite map_length, seq_length; exact EN').
  assert (Len : length (cls_rocauc e) = length L) by (unfold cls_rocauc, compute_rocauc; rewrite map_length, seq_length; exact EN).
  assert (ND' : NoDup L') by apply labels_of_NoDup. assert (ND : NoDup L) by apply labels_of_NoDup.
  rewrite (qsum_nth (cls_rocauc e) g L Len), (qsum_nth (cls_rocauc e') g L' Len').
  - apply (qsum_more String.string_dec g L L' ND ND').
    + intros l Hl. apply (reduced_labels_sub w cs l Ha Hl).
    + intros l _ Hno. unfold g. destruct (index_of l L') as [k|] eqn:Ek; [|reflexivity]. exfalso. apply Hno. apply index_of_nth in Ek. eapply nth_error_In; eauto.
  - intros i l Hi. unfold g. rewrite (index_of_NoDup l L' i ND' Hi).
    destruct (nth_error (cls_rocauc e') i) as [v|] eqn:Ev; [|apply nth_error_None in Ev; assert (i < length L') by (apply nth_error_Some; congruence); lia].
    exists v. split; [reflexivity|]. rewrite (nth_error_nth _ _ 0%Q Ev). reflexivity.
  - intros i l Hi. unfold g. assert (Hlt : i < length L) by (apply nth_error_Some; congruence).
    assert (Hni : has_number e l i) by (apply (ev_labels cs Hd w e He); exact Hi).
    destruct (index_of l L') as [k|] eqn:Ek.
    + apply index_of_nth in Ek. assert (Hni' : has_number e' l k) by (apply (ev_labels _ Hd' _ e' He'); exact Ek).
      assert (Hlt' : k < length L') by (apply nth_error_Some; congruence).
      destruct (reduced_rocauc cs Hd w e e' He He' l i k Hni Hni') as (v & v' & E & E' & V); [exact (Ho l i k Hni Hni')|].
      exists v. split; [exact E|]. rewrite (nth_error_nth _ _ 0%Q E'). exact V.
    + apply index_of_None in Ek. apply (absent_rocauc cs Hd w e He l i Hni). left. apply absent_outcomes; assumption.
Qed.
