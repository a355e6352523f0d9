(* Filtered classification evaluators: results per label, comparison with the reduced
   data, loading, information. *)
From Verif Require Import Prelude Counting CacheModel CacheSpec CacheProofs ClsModel ClsSpec ClsLabelProofs ClsProofs ClsConfProofs ClsLemmas ClsMore
  RocModel FlowModel FlowProofs FlowMore ClsFilterModel ClsFilterSpec ClsFilterProofs ClsFilterCounts.
From Coq Require Import QArith.
From Coq Require String.
Local Open Scope nat_scope.
Local Open Scope list_scope.

Lemma cselect_all w c l : cselect w all_kept c l = w c l.
Proof. unfold cselect, all_kept. apply andb_true_r. Qed.
Lemma expresses_all cs : expresses cs (fun _ => true) all_kept.
Proof. intros r d c _ _ _. reflexivity. Qed.

Lemma filter_ext_cview (w w' : cview) c : (forall l, w c l = w' c l) -> forall hm pass, vpositives w hm pass c = vpositives w' hm pass c.
Proof. intros H hm pass. unfold vpositives. apply filter_ext. exact H. Qed.
Lemma visible_ext (w w' : cview) c : (forall l, w c l = w' c l) -> visible w c = visible w' c.
Proof. intros H. unfold visible. apply existsb_ext_In'. auto. Qed.
Lemma viewed_ext (w w' : cview) c : (forall l, w c l = w' c l) -> viewed w c = viewed w' c.
Proof. intros H. unfold viewed. rewrite (filter_ext (fun p => w c (fst p)) (fun p => w' c (fst p))); [reflexivity|]. intros p. apply H. Qed.

Section Main.
  Variable cs : list classification.
  Hypothesis Hdist : Forall distinct_candidates cs.
  Variable w : cview.
  Variable e : ceval.
  Hypothesis He : cls_evaluator cs w e.
  Local Notation L := (labels_of cs).

  Lemma ev_acc : Forall accepted cs. Proof. exact (evaluator_accepted cs w e He). Qed.
  Lemma ev_good : cgood cs w e. Proof. exact (evaluator_good cs w e Hdist He). Qed.

  Lemma ev_labels i l : has_number e l i <-> nth_error L i = Some l.
  Proof. apply (cg_labels _ _ _ ev_good). Qed.
  Lemma ev_n : length (ce_labels e) = length L.
  Proof.
    pose proof (Permutation_length (cg_keys _ _ _ ev_good)) as H. unfold label_keys in H. rewrite map_length, seq_length in H. exact H.
  Qed.

  Lemma ev_counts tol hm thrs datums sel k thr l i :
    few_labels cs -> expresses cs datums sel -> nth_error thrs k = Some thr -> has_number e l i ->
    exists row, nth_error (cls_counts tol hm thrs datums e) k = Some row /\
      let u := cselect w sel in let pass := pass_counts tol thr in
      nth_error row i = Some (MkCounts (countb (v_tp u hm pass l) cs) (countb (v_fp u hm pass l) cs)
                                       (countb (v_fn u hm pass l) cs) (countb (v_tn u hm pass l) cs)).
  Proof.
    intros Hfew Hs Ht Hi. apply ev_labels in Hi. destruct (nth_label cs i l Hi) as (Hlt & Hl & Ez).
    unfold cls_counts. rewrite ev_n.
    destruct (counts_entry tol hm thrs (length L) datums (ce_tables e) k thr i Ht Hlt) as (row & E1 & E2).
    exists row. split; [exact E1|]. cbv zeta. rewrite E2, Ez.
    rewrite (counts_view cs ev_acc Hdist w e ev_good datums sel Hs Hfew tol thr hm l Hl). reflexivity.
  Qed.

  Lemma ev_confusion tol9 hm thrs datums sel k thr :
    expresses cs datums sel -> nth_error thrs k = Some thr ->
    exists M, nth_error (cls_confusion tol9 hm thrs datums e) k = Some M /\
      let u := cselect w sel in let pass := pass_cm tol9 (firstn (S k) thrs) in
      (forall g p i j, has_number e g i -> has_number e p j ->
         cm M (Z.of_nat i) (Z.of_nat j) = countb (fun c => String.eqb (c_groundtruth c) g && smem p (vpositives u hm pass c)) cs) /\
      (forall g i, has_number e g i ->
         cm_unmatched M (Z.of_nat i) = countb (fun c => visible u c && (String.eqb (c_groundtruth c) g
            && match vpositives u hm pass c with [] => true | _ => false end)) cs).
  Proof.
    intros Hs Ht.
    destruct (evaluate_confusion_nth tol9 hm thrs datums (ce_tables e) k thr Ht) as (m & M & _ & Hm & HM & H1 & H2).
    exists M. split; [exact HM|]. cbv zeta. split.
    - intros g p i j Hi Hj. apply ev_labels in Hi, Hj. destruct (nth_label cs i g Hi) as (_ & Hg & ->), (nth_label cs j p Hj) as (_ & Hp & ->).
      rewrite H1. apply (cm_view cs ev_acc Hdist w e ev_good datums sel Hs hm _ m Hm g p Hg Hp).
    - intros g i Hi. apply ev_labels in Hi. destruct (nth_label cs i g Hi) as (_ & Hg & ->).
      rewrite H2. apply (unmatched_view cs ev_acc Hdist w e ev_good datums sel Hs hm _ m Hm g Hg).
  Qed.

  Lemma ev_datums datums sel : expresses cs datums sel ->
    extract_counts datums (ce_tables e) = countb (visible (cselect w sel)) cs.
  Proof. intros Hs. apply (datums_view cs ev_acc w e ev_good datums sel Hs). Qed.

  Lemma ev_visible : extract_counts (fun _ => true) (ce_tables e) = countb (visible w) cs.
  Proof.
    rewrite (ev_datums _ all_kept (expresses_all cs)). apply countb_ext. intros c _. apply visible_ext. intros l. apply cselect_all.
  Qed.

  Lemma ev_nonempty : exists c, In c cs /\ visible w c = true.
  Proof.
    assert (Hv : forall (cs : list classification) w e, cls_evaluator cs w e -> concat (ce_tables e) <> []).
    { clear. intros cs w e H0. destruct H0 as [bs rb h b e Hw Hd Hf|bs rpf rb h b labels Hb Hw Hd Hf
        |w e bs rb datums gts pds sel sg sp e' He H1 H2 H3 Hf|w e bs rpf rb datums gts pds sel sg sp e' Hb He H1 H2 H3 Hf].
      - unfold mb_finalize in Hf. destruct (mem_done_open _ _ _ _ _ Hw Hf) as [Ho Hne]. pose proof (data_accepted h Hw) as Hacc.
        fold (mb_finalize bs rb (fold_left (mb_call bs rb) h mb_init)) in Hf.
        rewrite (m_open bs rb h Hw Ho) in Hf. unfold m_open_state in Hf.
        destruct (mb_finalize_done (data_of h) Hacc Hne bs rb (labels_of (data_of h)) (length (data_of h))) as (b' & e' & inter & E & Hst & _).
        unfold mb_finalize in *. rewrite E in Hf. injection Hf as <- <-. unfold ce_mem. cbn [ce_tables]. intros Hc.
        destruct Hst as [Hp _]. rewrite Hc in Hp. apply Permutation_nil in Hp.
        apply Hne. apply (rows_zero (data_of h) Hacc). unfold writes_of. rewrite Hp. reflexivity.
      - destruct (file_done_open _ _ _ _ _ _ Hb Hw Hf) as [Ho Hne]. pose proof (data_accepted h Hw) as Hacc.
        rewrite (f_open bs rpf rb h Hw Ho) in Hf. unfold f_open_state in Hf.
        destruct (fb_finalize_done (data_of h) Hacc Hne bs rpf rb (labels_of (data_of h)) (length (data_of h)) Hb) as (b' & d' & inter & E & Hst & _).
        rewrite E in Hf. injection Hf as <- <-. unfold ce_file. cbn [ce_tables]. intros Hc.
        destruct (Hst _ (Permutation_refl _)) as [[Hp _] Et]. rewrite Et, Hc in Hp. apply Permutation_nil in Hp.
        apply Hne. apply (rows_zero (data_of h) Hacc). unfold writes_of. rewrite Hp. reflexivity.
      - pose proof (cls_filter_mem_spec bs rb e datums gts pds) as S. cbv zeta in S.
        destruct (concat (filter_tables datums gts pds (ce_tables e))) as [|x l]; [rewrite S in Hf; discriminate|].
        destruct S as (e2 & inter & S & ST & _). rewrite S in Hf. injection Hf as <-. rewrite ST. cbn [concat]. rewrite app_nil_r. intros Hc.
        pose proof (sort_perm cls_sorting (x :: l)) as Hp. rewrite Hc in Hp. apply Permutation_sym, Permutation_nil in Hp. discriminate.
      - pose proof (cls_filter_file_spec bs rpf rb e datums gts pds Hb) as S. cbv zeta in S.
        destruct (concat (filter_tables datums gts pds (ce_tables e))) as [|x l] eqn:E; [rewrite S in Hf; discriminate|].
        destruct S as (e2 & gs & inter & S & Sg & ST & _). rewrite S in Hf. injection Hf as <-. rewrite ST. intros Hc.
        pose proof (concat_perm _ _ (sorted_tables_perm (map (@concat crow) gs))) as Hp. rewrite Hc in Hp.
        apply Permutation_sym, Permutation_nil in Hp. rewrite concat_map_concat, Sg, E in Hp. discriminate. }
    specialize (Hv cs w e He). destruct (concat (ce_tables e)) as [|r t] eqn:E; [congruence|].
    assert (Hr : In r (concat (ce_tables e))) by (rewrite E; left; reflexivity).
    apply (table_row cs ev_acc w e ev_good) in Hr. destruct Hr as (d & c & Hc & Hr & Hw). exists c. split; [eapply nth_error_In; eauto|].
    unfold visible. apply existsb_exists. exists (r_pd_label r). split; [|exact Hw].
    apply canon_In in Hr. destruct Hr as (_ & _ & _ & _ & _ & Hin & _). unfold candidates in Hin. apply in_combine_l in Hin. exact Hin.
  Qed.

  Lemma ev_visible_pos : 0 < countb (visible w) cs.
  Proof.
    destruct ev_nonempty as (c & Hc & Hv). unfold countb. destruct (filter (visible w) cs) eqn:E; [|cbn; lia].
    assert (In c []) by (rewrite <- E; apply filter_In; auto). destruct H.
  Qed.

  Lemma ev_accuracy tol hm thr datums sel : few_labels cs -> expresses cs datums sel ->
    (cls_accuracy tol hm thr datums e
     == inject_Z (Z.of_nat (countb (fun c => smem (c_groundtruth c) (vpositives (cselect w sel) hm (pass_counts tol thr) c)) cs))
        / inject_Z (Z.of_nat (countb (visible w) cs)))%Q.
  Proof.
    intros Hfew Hs. unfold cls_accuracy, reported_accuracy. rewrite evaluate_counts_total. cbn [map]. rewrite map_map, ev_n, ev_visible.
    unfold accuracy. pose proof ev_visible_pos as Hp. destruct (Nat.eqb_spec (countb (visible w) cs) 0) as [E|_]; [lia|].
    rewrite (tp_sum_view cs ev_acc Hdist w e ev_good datums sel Hs Hfew tol thr hm). reflexivity.
  Qed.

  Lemma ev_rows : length (concat (ce_tables e)) = list_sum_nat (map (fun c => countb (w c) (c_predictions c)) cs).
  Proof.
    transitivity (countb (fun _ => true) (concat (ce_tables e))); [symmetry; apply countb_true; reflexivity|].
    rewrite countb_concat. rewrite (list_sum_nat_ext _ (fun t => countb (fun _ => true) (filter (fun _ => true) t))).
    2: { intros t _. rewrite (filter_all (fun _ => true)) by reflexivity. reflexivity. }
    apply (view_countb cs ev_acc w e ev_good (fun _ => true) all_kept (expresses_all cs)).
    intros d c Hc. apply (countb_rows cs ev_acc _ _ d c Hc). intros r _. rewrite cselect_all. apply andb_true_r.
  Qed.

  Lemma ev_info datums sel : expresses cs datums sel ->
    cls_info datums e = (list_sum_nat (map (fun c => countb (w c) (c_predictions c)) cs), length L, countb (visible (cselect w sel)) cs).
  Proof. intros Hs. unfold cls_info. rewrite ev_rows, ev_n, (ev_datums datums sel Hs). reflexivity. Qed.

  Lemma ev_gt_count l : In l L ->
    gt_count_label (ce_tables e) (idx L l) = countb (fun c => visible w c && String.eqb (c_groundtruth c) l) cs.
  Proof.
    intros Hl. unfold gt_count_label.
    rewrite (list_sum_nat_ext _ (fun t => dcount zz_dec (fun r => (r_datum r, r_gt r))
       (fun r => (0 <=? r_gt r)%Z && (r_gt r =? idx L l)%Z) (filter (fun _ => true) t))).
    2: { intros t _. rewrite dkeys_countb, (filter_all (fun _ => true)) by reflexivity. reflexivity. }
    rewrite (view_dcount cs ev_acc w e ev_good (fun _ => true) all_kept (expresses_all cs) zz_dec _ _
        (fun c => if visible w c && String.eqb (c_groundtruth c) l then 1 else 0)).
    - apply list_sum_nat_if.
    - intros a b E. congruence.
    - intros d c Hc.
      erewrite (dcount_ext _ _ _ (fun r => (fun r => w c (r_pd_label r) && (0 <=? r_gt r)%Z) r && (r_gt r =? idx L l)%Z));
        [|intros r Hr; cbv beta; rewrite cselect_all, andb_assoc; reflexivity].
      rewrite (dkey_gt_const cs) by exact Hc. apply if_bool_eq.
      rewrite (existsb_rows_eq cs ev_acc (fun x => w c x && String.eqb (c_groundtruth c) l) _ d c Hc).
      + unfold visible. rewrite andb_true_iff, !existsb_exists. split.
        * intros (x & Hx & H). apply andb_true_iff in H. destruct H as [H1 H2]. split; [eauto|exact H2].
        * intros ((x & Hx & H1) & H2). exists x. rewrite H1, H2. auto.
      + intros r Hr. rewrite (gt_eqb cs d c r l Hc Hr Hl). apply canon_In in Hr. destruct Hr as (_ & _ & _ & -> & _).
        pose proof (idx_range L _ (labels_of_gt cs c (nth_error_In _ _ Hc))) as Hi.
        replace (0 <=? idx L (c_groundtruth c))%Z with true by (symmetry; apply Z.leb_le; lia). rewrite andb_true_r. reflexivity.
  Qed.

  Lemma ev_pd_count l : In l L ->
    pd_count_label (ce_tables e) (idx L l) = countb (fun c => smem l (c_predictions (viewed w c))) cs.
  Proof.
    intros Hl. unfold pd_count_label.
    rewrite (list_sum_nat_ext _ (fun t => dcount zz_dec (fun r => (r_datum r, r_pd r))
       (fun r => (0 <=? r_pd r)%Z && (r_pd r =? idx L l)%Z) (filter (fun _ => true) t))).
    2: { intros t _. rewrite dkeys_countb, (filter_all (fun _ => true)) by reflexivity. reflexivity. }
    rewrite (view_dcount cs ev_acc w e ev_good (fun _ => true) all_kept (expresses_all cs) zz_dec _ _
        (fun c => if smem l (c_predictions (viewed w c)) then 1 else 0)).
    - apply list_sum_nat_if.
    - intros a b E. congruence.
    - intros d c Hc. pose proof (acc_of cs ev_acc d c Hc) as Ha.
      erewrite (dcount_ext _ _ _ (fun r => (fun r => w c (r_pd_label r) && (0 <=? r_pd r)%Z) r && (r_pd r =? idx L l)%Z));
        [|intros r Hr; cbv beta; rewrite cselect_all, andb_assoc; reflexivity].
      rewrite (dkey_pd_const cs) by exact Hc. apply if_bool_eq.
      rewrite (existsb_rows_eq cs ev_acc (fun x => w c x && String.eqb x l) _ d c Hc).
      + rewrite (existsb_one (w c)), (viewed_predictions w c Ha), smem_filter. reflexivity.
      + intros r Hr. rewrite (pd_eqb cs d c r l Hc Hr Hl). pose proof (canon_In _ _ _ _ Hr) as (_ & _ & _ & _ & -> & Hin & _).
        pose proof (idx_range L _ (labels_of_pd cs c _ (nth_error_In _ _ Hc) Hin)) as Hi. cbn [fst] in Hi.
        replace (0 <=? idx L (r_pd_label r))%Z with true by (symmetry; apply Z.leb_le; lia). rewrite andb_true_r. reflexivity.
  Qed.

  Lemma map_seq_nth {A B} (F : nat -> B) (g : A -> B) l : forall k,
    (forall i x, nth_error l i = Some x -> F (k + i) = g x) -> map F (seq k (length l)) = map g l.
  Proof.
    induction l as [|x t IH]; intros k H; [reflexivity|]. cbn [length seq map]. f_equal.
    - rewrite <- (H 0 x eq_refl). f_equal. lia.
    - apply IH. intros i y Hy. rewrite <- (H (S i) y Hy). f_equal. lia.
  Qed.

  Lemma ev_label_counts :
    cls_label_counts e = Some (map (fun l => (countb (fun c => visible w c && String.eqb (c_groundtruth c) l) cs,
                                              countb (fun c => smem l (c_predictions (viewed w c))) cs)) L).
  Proof.
    unfold cls_label_counts. rewrite ev_n.
    assert (Hin : forallb (fun r => (r_gt r <? Z.of_nat (length L))%Z && (r_pd r <? Z.of_nat (length L))%Z) (concat (ce_tables e)) = true).
    { apply forallb_forall. intros r Hr. apply (table_row cs ev_acc w e ev_good) in Hr. destruct Hr as (d & c & Hc & Hr & _).
      apply canon_In in Hr. destruct Hr as (_ & _ & _ & Eg & Ep & Hin & _). pose proof (nth_error_In _ _ Hc) as Hcin.
      pose proof (idx_range L (c_groundtruth c) (labels_of_gt cs c Hcin)) as H1.
      pose proof (idx_range L (r_pd_label r) (labels_of_pd cs c _ Hcin Hin)) as H2. cbn [fst] in H2.
      rewrite Eg, Ep. apply andb_true_iff. lia. }
    rewrite Hin. f_equal. apply map_seq_nth. intros i l Hi. cbn [Nat.add].
    destruct (nth_label cs i l Hi) as (_ & Hl & ->). rewrite ev_gt_count, ev_pd_count by exact Hl. reflexivity.
  Qed.
End Main.

(* ------------------------------------------------------------------ *)
(** * The reduced data *)

Lemma top_from_split l : forall b, exists pre post, b :: l = pre ++ top_from b l :: post
  /\ (forall x, In x pre -> (snd x < snd (top_from b l))%Z) /\ (forall x, In x post -> (snd x <= snd (top_from b l))%Z).
Proof.
  induction l as [|y t IH]; intros b.
  - exists [], []. cbn. repeat split; intros x [].
  - cbn [top_from]. destruct (Z.ltb_spec (snd b) (snd y)) as [H|H].
    + destruct (IH y) as (pre & post & E & H1 & H2). exists (b :: pre), post. rewrite E. split; [reflexivity|]. split; [|exact H2].
      intros x [<-|Hx]; [|auto]. destruct pre as [|z pre']; cbn in E; injection E as E _; [rewrite <- E; exact H|].
      assert (snd y < snd (top_from y t))%Z by (apply H1; left; auto). lia.
    + destruct (IH b) as (pre & post & E & H1 & H2). destruct pre as [|z pre'].
      * cbn in E. injection E as E E'. exists [], (y :: t). cbn. rewrite <- E. split; [reflexivity|]. split; [intros x []|].
        intros x [<-|Hx]; [exact H|]. rewrite E. apply H2. rewrite <- E'. exact Hx.
      * cbn in E. injection E as Ez E. subst z. exists (b :: y :: pre'), post. cbn. rewrite <- E. split; [reflexivity|]. split; [|exact H2].
        assert (snd b < snd (top_from b t))%Z by (apply H1; left; auto).
        intros x [<-|[<-|Hx]]; [auto|lia|]. apply H1. right. exact Hx.
Qed.
Lemma top_from_unique v pre : forall b l post, b :: l = pre ++ v :: post ->
  (forall x, In x pre -> (snd x < snd v)%Z) -> (forall x, In x post -> (snd x <= snd v)%Z) -> top_from b l = v.
Proof.
  assert (G : forall post, (forall x, In x post -> (snd x <= snd v)%Z) -> top_from v post = v).
  { clear. induction post as [|x t IH]; intros H; [reflexivity|]. cbn [top_from].
    replace (snd v <? snd x)%Z with false by (symmetry; apply Z.ltb_ge; apply H; left; reflexivity). apply IH. intros y Hy. apply H. right. exact Hy. }
  assert (G2 : forall pre b post, (snd b < snd v)%Z -> (forall x, In x pre -> (snd x < snd v)%Z) ->
             (forall x, In x post -> (snd x <= snd v)%Z) -> top_from b (pre ++ v :: post) = v).
  { clear - G. induction pre as [|x t IH]; intros b post Hb H1 H2; cbn [app top_from].
    - replace (snd b <? snd v)%Z with true by (symmetry; apply Z.ltb_lt; exact Hb). apply G. exact H2.
    - apply IH; auto; [|intros y Hy; apply H1; right; exact Hy]. destruct (snd b <? snd x)%Z; [apply H1; left; reflexivity|exact Hb]. }
  intros b l post E H1 H2. destruct pre as [|x t]; cbn in E; injection E as -> ->; [apply G; exact H2|].
  apply G2; auto; [apply H1; left; reflexivity|intros y Hy; apply H1; right; exact Hy].
Qed.
Lemma top_kept (f : String.string * Z -> bool) (l : list (String.string * Z)) v :
  match l with [] => None | x :: t => Some (top_from x t) end = Some v -> f v = true ->
  match filter f l with [] => None | x :: t => Some (top_from x t) end = Some v.
Proof.
  destruct l as [|b l]; [discriminate|]. intros E Hf. injection E as Ev. destruct (top_from_split l b) as (pre & post & E & H1 & H2).
  rewrite Ev in *. rewrite E, filter_app. cbn [filter]. rewrite Hf.
  assert (P1 : forall x, In x (filter f pre) -> (snd x < snd v)%Z) by (intros x Hx; apply filter_In in Hx; apply H1; tauto).
  assert (P2 : forall x, In x (filter f post) -> (snd x <= snd v)%Z) by (intros x Hx; apply filter_In in Hx; apply H2; tauto).
  destruct (filter f pre ++ v :: filter f post) as [|x t] eqn:Ex; [destruct (filter f pre); discriminate|].
  f_equal. eapply top_from_unique; [symmetry; exact Ex|exact P1|exact P2].
Qed.

Lemma combine_split_map {A B} (l : list (A * B)) : combine (map fst l) (map snd l) = l.
Proof. induction l as [|[a b] t IH]; [reflexivity|]. cbn. rewrite IH. reflexivity. Qed.
Lemma viewed_candidates w c : candidates (viewed w c) = filter (fun p => w c (fst p)) (candidates c).
Proof. unfold viewed. unfold candidates at 1. cbn [c_predictions c_scores]. apply combine_split_map. Qed.
Lemma viewed_top w c l s : top c = Some (l, s) -> w c l = true -> top (viewed w c) = Some (l, s).
Proof. unfold top. rewrite viewed_candidates. intros H Hw. apply (top_kept (fun p => w c (fst p)) _ (l, s) H). exact Hw. Qed.

Lemma viewed_positives w c hm pass :
  (hm = false \/ match top c with Some (l, _) => w c l = true | None => False end) ->
  positives hm pass (viewed w c) = vpositives w hm pass c.
Proof.
  intros H. unfold vpositives, positives. destruct hm.
  - destruct H as [H|H]; [discriminate|]. destruct (top c) as [[l s]|] eqn:E; [|destruct H].
    rewrite (viewed_top w c l s E H). destruct (pass s); [cbn; rewrite H; reflexivity|reflexivity].
  - rewrite viewed_candidates. generalize (candidates c). clear. induction l as [|[a s] t IH]; [reflexivity|]. cbn [filter fst].
    destruct (w c a) eqn:Ew; cbn [filter snd]; destruct (pass s); cbn [map filter fst]; rewrite ?Ew, IH; reflexivity.
Qed.

Lemma viewed_visible w c : accepted c -> visible w c = negb (match c_predictions (viewed w c) with [] => true | _ => false end).
Proof.
  intros Ha. rewrite (viewed_predictions w c Ha). unfold visible. generalize (c_predictions c). clear.
  induction l as [|x t IH]; [reflexivity|]. cbn. destruct (w c x); [reflexivity|exact IH].
Qed.
Lemma viewed_accepted w c : accepted c -> visible w c = true -> accepted (viewed w c).
Proof.
  intros Ha Hv. rewrite (viewed_visible w c Ha) in Hv. split.
  - intros E. rewrite E in Hv. discriminate.
  - unfold viewed. cbn [c_predictions c_scores]. rewrite !map_length. reflexivity.
Qed.
Lemma viewed_distinct w c : accepted c -> distinct_candidates c -> distinct_candidates (viewed w c).
Proof. intros Ha Hd. unfold distinct_candidates in *. rewrite (viewed_predictions w c Ha). apply NoDup_filter. exact Hd. Qed.

Lemma reduced_accepted w cs : Forall accepted cs -> Forall accepted (reduced w cs).
Proof.
  intros H. unfold reduced. apply Forall_forall. intros c Hc. apply in_map_iff in Hc. destruct Hc as (c0 & <- & Hc).
  apply filter_In in Hc. rewrite Forall_forall in H. apply viewed_accepted; [apply H|]; tauto.
Qed.
Lemma reduced_distinct w cs : Forall accepted cs -> Forall distinct_candidates cs -> Forall distinct_candidates (reduced w cs).
Proof.
  intros Ha H. unfold reduced. apply Forall_forall. intros c Hc. apply in_map_iff in Hc. destruct Hc as (c0 & <- & Hc).
  apply filter_In in Hc. rewrite Forall_forall in *. apply viewed_distinct; [apply Ha|apply H]; tauto.
Qed.
Lemma reduced_count (P Q : classification -> bool) w cs :
  (forall c, In c cs -> visible w c = true -> P (viewed w c) = Q c) -> (forall c, In c cs -> visible w c = false -> Q c = false) ->
  countb P (reduced w cs) = countb Q cs.
Proof.
  intros H1 H2. unfold reduced. rewrite countb_map, countb_filter. apply countb_ext. intros c Hc.
  destruct (visible w c) eqn:E; [cbn; auto|]. rewrite (H2 c Hc E). reflexivity.
Qed.
Lemma invisible_positives w c hm pass : accepted c -> visible w c = false -> vpositives w hm pass c = [].
Proof.
  intros Ha Hv. destruct (vpositives w hm pass c) as [|x t] eqn:E; [reflexivity|]. exfalso.
  assert (Hx : In x (vpositives w hm pass c)) by (rewrite E; left; reflexivity). unfold vpositives in Hx. apply filter_In in Hx. destruct Hx as [Hx Hw].
  apply not_true_iff_false in Hv. apply Hv. unfold visible. apply existsb_exists. exists x. split; [eapply positives_sub; eauto|exact Hw].
Qed.
Lemma invisible_predictions w c : accepted c -> visible w c = false -> c_predictions (viewed w c) = [].
Proof. intros Ha Hv. rewrite (viewed_visible w c Ha) in Hv. destruct (c_predictions (viewed w c)); [reflexivity|discriminate]. Qed.

Lemma reduced_labels w cs l : Forall accepted cs -> (In l (labels_of (reduced w cs)) <->
  exists c, In c cs /\ visible w c = true /\ (l = c_groundtruth c \/ In l (c_predictions (viewed w c)))).
Proof.
  intros Ha. destruct (registry (reduced w cs) (reduced_accepted w cs Ha)) as (_ & _ & H). rewrite H. split.
  - intros (c & Hc & Hl). unfold reduced in Hc. apply in_map_iff in Hc. destruct Hc as (c0 & <- & Hc). apply filter_In in Hc.
    exists c0. split; [tauto|]. split; [tauto|exact Hl].
  - intros (c & Hc & Hv & Hl). exists (viewed w c). split; [|exact Hl]. unfold reduced. apply in_map. apply filter_In. auto.
Qed.
Lemma reduced_labels_sub w cs l : Forall accepted cs -> In l (labels_of (reduced w cs)) -> In l (labels_of cs).
Proof.
  intros Ha H. apply (reduced_labels w cs l Ha) in H. destruct H as (c & Hc & Hv & Hl). destruct (registry cs Ha) as (_ & _ & R).
  apply R. exists c. split; [exact Hc|]. destruct Hl as [Hl|Hl]; [left; exact Hl|right].
  assert (Hac : accepted c) by (rewrite Forall_forall in Ha; auto). rewrite (viewed_predictions w c Hac) in Hl. apply filter_In in Hl. tauto.
Qed.
Lemma reduced_few w cs : Forall accepted cs -> few_labels cs -> few_labels (reduced w cs).
Proof.
  intros Ha H. unfold few_labels in *. assert (length (labels_of (reduced w cs)) <= length (labels_of cs)); [|lia].
  apply NoDup_incl_length; [apply labels_of_NoDup|]. intros l Hl. eapply reduced_labels_sub; eauto.
Qed.

Section Reduced.
  Variable cs : list classification.
  Hypothesis Hacc : Forall accepted cs.
  Variable w : cview.
  Variable hm : bool.
  Hypothesis Hwin : hm = false \/ winners_kept w cs.
  Variable pass : Z -> bool.
  Local Notation cs' := (reduced w cs).

  Lemma red_pos c : In c cs -> visible w c = true -> vpositives all_kept hm pass (viewed w c) = vpositives w hm pass c.
  Proof.
    intros Hc Hv. rewrite <- (viewed_positives w c hm pass) by (destruct Hwin as [H|H]; [left; exact H|right; apply H; auto]).
    unfold vpositives, all_kept. generalize (positives hm pass (viewed w c)). clear. induction l as [|x t IH]; [reflexivity|]. cbn. rewrite IH. reflexivity.
  Qed.
  Lemma red_acc c : In c cs -> accepted c. Proof. intros H. rewrite Forall_forall in Hacc. auto. Qed.
  Lemma red_view c : c_predictions (viewed all_kept (viewed w c)) = c_predictions (viewed w c).
  Proof.
    unfold viewed at 1. cbn [c_predictions]. rewrite viewed_candidates. unfold viewed. cbn [c_predictions].
    f_equal. unfold all_kept. generalize (filter (fun p => w c (fst p)) (candidates c)). clear. induction l as [|x t IH]; [reflexivity|]. cbn. rewrite IH. reflexivity.
  Qed.
  Lemma red_tp l : countb (v_tp all_kept hm pass l) cs' = countb (v_tp w hm pass l) cs.
  Proof.
    apply reduced_count; intros c Hc Hv; unfold v_tp.
    - rewrite (red_pos c Hc Hv). reflexivity.
    - rewrite (invisible_positives w c hm pass (red_acc c Hc) Hv), andb_false_r. reflexivity.
  Qed.
  Lemma red_fp l : countb (v_fp all_kept hm pass l) cs' = countb (v_fp w hm pass l) cs.
  Proof.
    apply reduced_count; intros c Hc Hv; unfold v_fp.
    - rewrite (red_pos c Hc Hv). reflexivity.
    - rewrite (invisible_positives w c hm pass (red_acc c Hc) Hv), andb_false_r. reflexivity.
  Qed.
  Lemma red_fn l : countb (v_fn all_kept hm pass l) cs' = countb (v_fn w hm pass l) cs.
  Proof.
    apply reduced_count; intros c Hc Hv; unfold v_fn.
    - rewrite (red_pos c Hc Hv), red_view. reflexivity.
    - rewrite (invisible_positives w c hm pass (red_acc c Hc) Hv), (invisible_predictions w c (red_acc c Hc) Hv), andb_false_r. reflexivity.
  Qed.
  Lemma red_tn l : countb (v_tn all_kept hm pass l) cs' = countb (v_tn w hm pass l) cs.
  Proof.
    apply reduced_count; intros c Hc Hv; unfold v_tn.
    - rewrite (red_pos c Hc Hv), red_view. reflexivity.
    - rewrite (invisible_predictions w c (red_acc c Hc) Hv), andb_false_r. reflexivity.
  Qed.
  Lemma red_cm g p : countb (fun c => String.eqb (c_groundtruth c) g && smem p (vpositives all_kept hm pass c)) cs'
    = countb (fun c => String.eqb (c_groundtruth c) g && smem p (vpositives w hm pass c)) cs.
  Proof.
    apply reduced_count; intros c Hc Hv.
    - rewrite (red_pos c Hc Hv). reflexivity.
    - rewrite (invisible_positives w c hm pass (red_acc c Hc) Hv), andb_false_r. reflexivity.
  Qed.
  Lemma red_visible c : In c cs -> visible w c = true -> visible all_kept (viewed w c) = true.
  Proof.
    intros Hc Hv. rewrite viewed_visible by (apply viewed_accepted; [apply red_acc; exact Hc|exact Hv]).
    rewrite red_view. rewrite (viewed_visible w c (red_acc c Hc)) in Hv. exact Hv.
  Qed.
  Lemma red_unmatched g :
    countb (fun c => visible all_kept c && (String.eqb (c_groundtruth c) g && match vpositives all_kept hm pass c with [] => true | _ => false end)) cs'
    = countb (fun c => visible w c && (String.eqb (c_groundtruth c) g && match vpositives w hm pass c with [] => true | _ => false end)) cs.
  Proof.
    apply reduced_count; intros c Hc Hv.
    - rewrite (red_pos c Hc Hv), (red_visible c Hc Hv), Hv. reflexivity.
    - rewrite Hv. reflexivity.
  Qed.
  Lemma red_correct : countb (fun c => smem (c_groundtruth c) (vpositives all_kept hm pass c)) cs'
    = countb (fun c => smem (c_groundtruth c) (vpositives w hm pass c)) cs.
  Proof.
    apply reduced_count; intros c Hc Hv.
    - rewrite (red_pos c Hc Hv). reflexivity.
    - rewrite (invisible_positives w c hm pass (red_acc c Hc) Hv). reflexivity.
  Qed.

  (* a label that does not remain counts nothing *)
  Lemma red_absent l : ~ In l (labels_of cs') ->
    countb (v_tp w hm pass l) cs = 0 /\ countb (v_fp w hm pass l) cs = 0 /\ countb (v_fn w hm pass l) cs = 0 /\ countb (v_tn w hm pass l) cs = 0.
  Proof.
    intros Hl. assert (N : forall c, In c cs -> visible w c = true -> c_groundtruth c <> l /\ ~ In l (c_predictions (viewed w c))).
    { intros c Hc Hv. split; intros H; apply Hl; apply (reduced_labels w cs l Hacc); exists c; auto. }
    assert (P : forall c, In c cs -> smem l (vpositives w hm pass c) = true -> visible w c = true /\ In l (c_predictions (viewed w c))).
    { intros c Hc H. apply smem_In in H. unfold vpositives in H. apply filter_In in H. destruct H as [H Hw]. apply positives_sub in H.
      rewrite (viewed_predictions w c (red_acc c Hc)). split; [|apply filter_In; auto]. unfold visible. apply existsb_exists. eauto. }
    assert (V : forall c, In c cs -> visible w c = false -> vpositives w hm pass c = [] /\ c_predictions (viewed w c) = [])
      by (intros c Hc Hv; split; [apply invisible_positives|apply invisible_predictions]; auto using red_acc).
    assert (F : forall c, In c cs -> smem l (vpositives w hm pass c) = false).
    { intros c Hc. apply not_true_is_false. intros H. destruct (P c Hc H) as [Hv Hin]. apply (N c Hc Hv). exact Hin. }
    assert (F2 : forall c, In c cs -> smem l (c_predictions (viewed w c)) = false).
    { intros c Hc. apply not_true_is_false. intros H. apply smem_In in H. destruct (visible w c) eqn:Hv.
      - apply (N c Hc Hv). exact H.
      - rewrite (proj2 (V c Hc Hv)) in H. destruct H. }
    repeat split; apply countb_false; intros c Hc.
    - unfold v_tp. rewrite (F c Hc), andb_false_r. reflexivity.
    - unfold v_fp. rewrite (F c Hc), andb_false_r. reflexivity.
    - unfold v_fn. rewrite (F2 c Hc). cbn [andb orb]. destruct (visible w c) eqn:Hv.
      + destruct (N c Hc Hv) as [Hg _]. apply String.eqb_neq in Hg. rewrite Hg. reflexivity.
      + rewrite (proj1 (V c Hc Hv)). cbn. apply andb_false_r.
    - unfold v_tn. rewrite (F2 c Hc), andb_false_r. reflexivity.
  Qed.
End Reduced.

(* ------------------------------------------------------------------ *)
(** * When filter succeeds *)

Section Filter.
  Variable cs : list classification.
  Hypothesis Hdist : Forall distinct_candidates cs.
  Variables w sel sg sp : cview.
  Variable e : ceval.
  Hypothesis He : cls_evaluator cs w e.
  Variable datums : crow -> bool.
  Variables gts pds : option (crow -> bool).
  Hypothesis H1 : expresses cs datums sel.
  Hypothesis H2 : opt_expresses cs gts sg.
  Hypothesis H3 : opt_expresses cs pds sp.

  Lemma filter_remaining : concat (filter_tables datums gts pds (ce_tables e)) = [] <->
    forall c l, In c cs -> In l (c_predictions c) -> crestrict w sel sg sp c l = false.
  Proof.
    pose proof (evaluator_accepted cs w e He) as Hacc. pose proof (evaluator_good cs w e Hdist He) as G.
    pose proof (restrict_rows cs Hacc Hdist w sel sg sp e datums gts pds G H1 H2 H3) as HR. split.
    - intros E c l Hc Hl. apply not_true_is_false. intros Hw. rewrite E in HR. apply Permutation_nil in HR.
      apply In_nth_error in Hc. destruct Hc as (d & Hc). rewrite <- (row_labels cs d c (acc_of cs Hacc d c Hc)) in Hl.
      apply in_map_iff in Hl. destruct Hl as (r & <- & Hr).
      assert (In r (filter (kept_row cs (crestrict w sel sg sp)) (concat (writes_of cs)))).
      { apply filter_In. split; [apply (writes_row cs Hacc); eauto|]. rewrite (kept_row_canon cs _ d c r Hc Hr). exact Hw. }
      rewrite HR in H. destruct H.
    - intros H. assert (E : filter (kept_row cs (crestrict w sel sg sp)) (concat (writes_of cs)) = []).
      { rewrite (filter_ext_In' _ (fun _ => false)); [generalize (concat (writes_of cs)); clear; induction l; auto|].
        intros r Hr. apply (writes_row cs Hacc) in Hr. destruct Hr as (d & c & Hc & Hr). rewrite (kept_row_canon cs _ d c r Hc Hr).
        apply H; [eapply nth_error_In; eauto|]. rewrite <- (row_labels cs d c (acc_of cs Hacc d c Hc)). apply in_map. exact Hr. }
      rewrite E in HR. apply Permutation_sym, Permutation_nil in HR. exact HR.
  Qed.

  Lemma filter_mem_outcome bs rb :
    (cls_filter_mem bs rb e datums gts pds = EmptyCache /\ forall c l, In c cs -> In l (c_predictions c) -> crestrict w sel sg sp c l = false)
    \/ (exists e', cls_filter_mem bs rb e datums gts pds = Done e' /\ exists c l, In c cs /\ In l (c_predictions c) /\ crestrict w sel sg sp c l = true).
  Proof.
    pose proof (cls_filter_mem_spec bs rb e datums gts pds) as S. cbv zeta in S. pose proof filter_remaining as FR.
    destruct (concat (filter_tables datums gts pds (ce_tables e))) as [|x l] eqn:E; [left; split; [exact S|apply FR; reflexivity]|].
    right. destruct S as (e' & inter & S & _). exists e'. split; [exact S|].
    pose proof (cls_filtered_mem cs w e bs rb datums gts pds sel sg sp e' He H1 H2 H3 S) as He'.
    destruct (ev_nonempty cs Hdist _ e' He') as (c & Hc & Hv). unfold visible in Hv. apply existsb_exists in Hv. destruct Hv as (y & Hy & Hw). eauto 6.
  Qed.
  Lemma filter_file_outcome bs rpf rb : batching_ok rb ->
    (cls_filter_file bs rpf rb e datums gts pds = EmptyCache /\ forall c l, In c cs -> In l (c_predictions c) -> crestrict w sel sg sp c l = false)
    \/ (exists e', cls_filter_file bs rpf rb e datums gts pds = Done e' /\ exists c l, In c cs /\ In l (c_predictions c) /\ crestrict w sel sg sp c l = true).
  Proof.
    intros Hb. pose proof (cls_filter_file_spec bs rpf rb e datums gts pds Hb) as S. cbv zeta in S. pose proof filter_remaining as FR.
    destruct (concat (filter_tables datums gts pds (ce_tables e))) as [|x l] eqn:E; [left; split; [exact S|apply FR; reflexivity]|].
    right. destruct S as (e' & gs & inter & S & _). exists e'. split; [exact S|].
    pose proof (cls_filtered_file cs w e bs rpf rb datums gts pds sel sg sp e' Hb He H1 H2 H3 S) as He'.
    destruct (ev_nonempty cs Hdist _ e' He') as (c & Hc & Hv). unfold visible in Hv. apply existsb_exists in Hv. destruct Hv as (y & Hy & Hw). eauto 6.
  Qed.
End Filter.

(* ------------------------------------------------------------------ *)
(** * Load *)

Lemma load_built bs rpf rb h b labels rows curve : batching_ok rb -> wellformed_calls h ->
  fb_finalize bs rpf rb (fold_left (fb_call bs rpf rb) h fb_init) = (b, Done labels) ->
  Permutation rows (f_dir (fb_writer b)) -> Permutation curve (f_dir (fb_curve b)) ->
  cls_load rows curve None = ce_file b labels.
Proof.
  intros Hb Hw Hf Hr Hc. destruct (file_done_open _ _ _ _ _ _ Hb Hw Hf) as [Ho Hne]. pose proof (data_accepted h Hw) as Hacc.
  rewrite (f_open bs rpf rb h Hw Ho) in Hf. unfold f_open_state in Hf.
  destruct (fb_finalize_done (data_of h) Hacc Hne bs rpf rb (labels_of (data_of h)) (length (data_of h)) Hb) as (b' & d' & inter & E & Hst & El & _ & HC & _).
  rewrite E in Hf. injection Hf as <- <-. unfold cls_load, ce_file. rewrite (proj2 (Hst rows Hr)), (HC curve Hc), El. reflexivity.
Qed.
Lemma load_filtered bs rpf rb e datums gts pds b labels rows curve : batching_ok rb ->
  cls_filter_build bs rpf rb e datums gts pds = (b, Done labels) ->
  Permutation rows (f_dir (fb_writer b)) -> Permutation curve (f_dir (fb_curve b)) ->
  labels = ce_labels e /\ cls_load rows curve (Some labels) = ce_file b labels /\ cls_filter_file bs rpf rb e datums gts pds = Done (ce_file b labels).
Proof.
  intros Hb Hf Hr Hc. unfold cls_filter_file. rewrite Hf. pose proof (cls_filter_build_spec bs rpf rb e datums gts pds Hb) as S. cbv zeta in S.
  destruct (concat (filter_tables datums gts pds (ce_tables e))) as [|x l].
  - destruct S as (b' & S). rewrite S in Hf. discriminate.
  - destruct S as (b' & gs & inter & S & _ & HD & HC & _). rewrite S in Hf. injection Hf as <- <-.
    split; [reflexivity|]. split; [|reflexivity]. unfold cls_load, ce_file, cls_labels_of, fe_tables. rewrite (HD rows Hr), (HC curve Hc), (HD _ (Permutation_refl _)). reflexivity.
Qed.

(* ------------------------------------------------------------------ *)
(** * A filtered evaluator against an evaluator of the reduced data *)

Lemma countb_ext_cview {A} (P Q : A -> bool) l : (forall x, In x l -> P x = Q x) -> countb P l = countb Q l.
Proof. intros H. unfold countb. rewrite (filter_ext_In' P Q); auto. Qed.
Lemma vpos_all (w : cview) c hm pass : vpositives (cselect w all_kept) hm pass c = vpositives w hm pass c.
Proof. apply filter_ext_cview. intros l. apply cselect_all. Qed.
Lemma vprd_all (w : cview) c : viewed (cselect w all_kept) c = viewed w c.
Proof. apply viewed_ext. intros l. apply cselect_all. Qed.

Section Against.
  Variable cs : list classification.
  Variable w : cview.
  Variables e e' : ceval.
  Hypothesis Hdist : Forall distinct_candidates cs.
  Hypothesis He : cls_evaluator cs w e.
  Hypothesis He' : cls_evaluator (reduced w cs) all_kept e'.

  Lemma counts_all (u : cview) cs0 e0 (Hd : Forall distinct_candidates cs0) (He0 : cls_evaluator cs0 u e0) tol hm thrs k thr l i :
    few_labels cs0 -> nth_error thrs k = Some thr -> has_number e0 l i ->
    exists row, nth_error (cls_counts tol hm thrs (fun _ => true) e0) k = Some row /\
      nth_error row i = Some (MkCounts (countb (v_tp u hm (pass_counts tol thr) l) cs0) (countb (v_fp u hm (pass_counts tol thr) l) cs0)
                                       (countb (v_fn u hm (pass_counts tol thr) l) cs0) (countb (v_tn u hm (pass_counts tol thr) l) cs0)).
  Proof.
    intros Hf Hk Hi. destruct (ev_counts cs0 Hd u e0 He0 tol hm thrs (fun _ => true) all_kept k thr l i Hf (expresses_all cs0) Hk Hi) as (row & E1 & E2).
    exists row. split; [exact E1|]. cbv zeta in E2. rewrite E2. f_equal.
    f_equal; apply countb_ext_cview; intros c _; unfold v_tp, v_fp, v_fn, v_tn; rewrite ?vpos_all, ?vprd_all; reflexivity.
  Qed.
End Against.

Theorem reduced_counts cs w e e' : Forall distinct_candidates cs -> few_labels cs ->
  cls_evaluator cs w e -> cls_evaluator (reduced w cs) all_kept e' ->
  forall tol hm thrs k thr l i i', hm = false \/ winners_kept w cs ->
  nth_error thrs k = Some thr -> has_number e l i -> has_number e' l i' ->
  exists row row' c, nth_error (cls_counts tol hm thrs (fun _ => true) e) k = Some row /\
    nth_error (cls_counts tol hm thrs (fun _ => true) e') k = Some row' /\ nth_error row i = Some c /\ nth_error row' i' = Some c.
Proof.
  intros Hd Hf He He' tol hm thrs k thr l i i' Hw Hk Hi Hi'. pose proof (ev_acc cs w e He) as Ha.
  destruct (counts_all w cs e Hd He tol hm thrs k thr l i Hf Hk Hi) as (row & E1 & E2).
  destruct (counts_all all_kept (reduced w cs) e' (reduced_distinct w cs Ha Hd) He' tol hm thrs k thr l i' (reduced_few w cs Ha Hf) Hk Hi') as (row' & E1' & E2').
  rewrite (red_tp cs Ha w hm Hw), (red_fp cs Ha w hm Hw), (red_fn cs Ha w hm Hw), (red_tn cs Ha w hm Hw) in E2'. eauto 8.
Qed.
Theorem absent_counts cs w e : Forall distinct_candidates cs -> few_labels cs -> cls_evaluator cs w e ->
  forall tol hm thrs k thr l i, nth_error thrs k = Some thr -> has_number e l i -> ~ In l (labels_of (reduced w cs)) ->
  exists row, nth_error (cls_counts tol hm thrs (fun _ => true) e) k = Some row /\ nth_error row i = Some (MkCounts 0 0 0 0).
Proof.
  intros Hd Hf He tol hm thrs k thr l i Hk Hi Hn. pose proof (ev_acc cs w e He) as Ha.
  destruct (counts_all w cs e Hd He tol hm thrs k thr l i Hf Hk Hi) as (row & E1 & E2).
  exists row. split; [exact E1|]. rewrite E2. destruct (red_absent cs Ha w hm (pass_counts tol thr) l Hn) as (-> & -> & -> & ->). reflexivity.
Qed.
Theorem reduced_accuracy cs w e e' : Forall distinct_candidates cs -> few_labels cs ->
  cls_evaluator cs w e -> cls_evaluator (reduced w cs) all_kept e' ->
  forall tol hm thr, hm = false \/ winners_kept w cs ->
  (cls_accuracy tol hm thr (fun _ => true) e == cls_accuracy tol hm thr (fun _ => true) e')%Q.
Proof.
  intros Hd Hf He He' tol hm thr Hw. pose proof (ev_acc cs w e He) as Ha.
  rewrite (ev_accuracy cs Hd w e He tol hm thr (fun _ => true) all_kept Hf (expresses_all cs)).
  rewrite (ev_accuracy _ (reduced_distinct w cs Ha Hd) _ e' He' tol hm thr (fun _ => true) all_kept (reduced_few w cs Ha Hf) (expresses_all _)).
  assert (E : forall u cs0, countb (fun c => smem (c_groundtruth c) (vpositives (cselect u all_kept) hm (pass_counts tol thr) c)) cs0
    = countb (fun c => smem (c_groundtruth c) (vpositives u hm (pass_counts tol thr) c)) cs0).
  { intros u cs0. apply countb_ext_cview. intros c _. rewrite vpos_all. reflexivity. }
  rewrite !E, (red_correct cs Ha w hm Hw).
  replace (countb (visible all_kept) (reduced w cs)) with (countb (visible w) cs); [reflexivity|]. symmetry. apply reduced_count.
  - intros c Hc Hv. rewrite (red_visible cs Ha w c Hc Hv), Hv. reflexivity.
  - intros c _ Hv. exact Hv.
Qed.
Theorem reduced_confusion cs w e e' : Forall distinct_candidates cs -> cls_evaluator cs w e -> cls_evaluator (reduced w cs) all_kept e' ->
  forall tol9 hm thrs k thr, hm = false \/ winners_kept w cs -> nth_error thrs k = Some thr ->
  exists M M', nth_error (cls_confusion tol9 hm thrs (fun _ => true) e) k = Some M /\
    nth_error (cls_confusion tol9 hm thrs (fun _ => true) e') k = Some M' /\
    (forall g p i j i' j', has_number e g i -> has_number e p j -> has_number e' g i' -> has_number e' p j' ->
       cm M (Z.of_nat i) (Z.of_nat j) = cm M' (Z.of_nat i') (Z.of_nat j')) /\
    (forall g i i', has_number e g i -> has_number e' g i' -> cm_unmatched M (Z.of_nat i) = cm_unmatched M' (Z.of_nat i')).
Proof.
  intros Hd He He' tol9 hm thrs k thr Hw Hk. pose proof (ev_acc cs w e He) as Ha.
  destruct (ev_confusion cs Hd w e He tol9 hm thrs (fun _ => true) all_kept k thr (expresses_all cs) Hk) as (M & EM & C & U).
  destruct (ev_confusion _ (reduced_distinct w cs Ha Hd) _ e' He' tol9 hm thrs (fun _ => true) all_kept k thr (expresses_all _) Hk) as (M' & EM' & C' & U').
  exists M, M'. split; [exact EM|]. split; [exact EM'|].
  split.
  - intros g p i j i' j' Hg Hp Hg' Hp'. rewrite (C g p i j Hg Hp), (C' g p i' j' Hg' Hp').
    rewrite (countb_ext_cview _ (fun c => String.eqb (c_groundtruth c) g && smem p (vpositives w hm (pass_cm tol9 (firstn (S k) thrs)) c)) cs) by (intros c _; rewrite vpos_all; reflexivity).
    rewrite <- (red_cm cs Ha w hm Hw). apply countb_ext_cview. intros c _. rewrite vpos_all. reflexivity.
  - intros g i i' Hg Hg'. rewrite (U g i Hg), (U' g i' Hg').
    rewrite (countb_ext_cview _ (fun c => visible w c && (String.eqb (c_groundtruth c) g && match vpositives w hm (pass_cm tol9 (firstn (S k) thrs)) c with [] => true | _ => false end)) cs).
    2: { intros c _. rewrite vpos_all, (visible_ext (cselect w all_kept) w c (cselect_all w c)). reflexivity. }
    rewrite <- (red_unmatched cs Ha w hm Hw). apply countb_ext_cview. intros c _. rewrite vpos_all, (visible_ext (cselect all_kept all_kept) all_kept c (cselect_all all_kept c)). reflexivity.
Qed.
