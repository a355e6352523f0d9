(* Proofs about the classification reports. *)
From Verif Require Import Prelude Counting CacheModel CacheSpec ClsModel ClsSpec ClsLabelProofs ClsProofs ClsConfProofs RocModel RocProofs RocMain RocCurve
  FlowModel FlowProofs FlowMore ClsLemmas ClsMore ClsFilterModel ClsFilterSpec ClsFilterProofs ClsFilterCounts ClsFilterMain ClsFilterRoc
  ClsReportModel ClsReportSpec.
From Coq Require Import String QArith Lqa.
Local Notation length := List.length (only parsing).
Local Notation concat := List.concat (only parsing).
Local Open Scope nat_scope.
Local Open Scope list_scope.

(* ---------------------------------------------------------------- lists *)
Lemma dict_get_In d k v : dict_get d k = Some v -> In (k, v) d.
Proof.
  induction d as [|[k' v'] t IH]; cbn; [discriminate|]. destruct (Z.eqb_spec k k') as [->|N]; [intros [= ->]; auto|auto].
Qed.
Lemma dict_In_get d k v : NoDup (map fst d) -> In (k, v) d -> dict_get d k = Some v.
Proof.
  induction d as [|[k' v'] t IH]; cbn; [tauto|]. intros Hn Hi. inversion Hn; subst.
  destruct (Z.eqb_spec k k') as [->|N].
  - destruct Hi as [[= ->]|Hi]; [reflexivity|]. exfalso. apply H1. apply in_map_iff. exists (k', v). auto.
  - destruct Hi as [[= ? ?]|Hi]; [congruence|auto].
Qed.
Lemma map_combine_nth {A B C} (F : A * B -> C) (G : A -> C) (xs : list A) : forall ys,
  (forall k x, nth_error xs k = Some x -> exists y, nth_error ys k = Some y /\ F (x, y) = G x) ->
  map F (combine xs ys) = map G xs.
Proof.
  induction xs as [|x xs IH]; intros ys H; [reflexivity|].
  destruct (H 0 x eq_refl) as (y & Hy & E). destruct ys as [|y' ys]; [discriminate|]. cbn in Hy. injection Hy as ->.
  cbn. rewrite E. f_equal. apply IH. intros k z Hz. exact (H (S k) z Hz).
Qed.
Lemma nth_error_combine {A B} (xs : list A) : forall (ys : list B) k x y,
  nth_error xs k = Some x -> nth_error ys k = Some y -> nth_error (combine xs ys) k = Some (x, y).
Proof.
  induction xs as [|a xs IH]; intros [|b ys] [|k] x y; cbn; try discriminate.
  - intros [= ->] [= ->]. reflexivity.
  - apply IH.
Qed.
Lemma map_nth_seq {A} (l : list A) d : map (fun i => nth i l d) (seq 0 (length l)) = l.
Proof.
  induction l as [|a l IH]; [reflexivity|]. cbn [length seq map nth]. f_equal.
  rewrite <- seq_shift, map_map. exact IH.
Qed.

(* ---------------------------------------------------------------- the label map *)
Section Items.
  Variable cs : list classification.
  Variable w : cview.
  Variable e : ceval.
  Hypothesis G : cgood cs w e.
  Local Notation L := (labels_of cs).
  Local Notation d := (ce_labels e).

  Lemma items_keys : Permutation (map fst d) (map Z.of_nat (seq 0 (length L))).
  Proof.
    symmetry. apply NoDup_Permutation_bis.
    - apply FinFun.Injective_map_NoDup; [intros a b; lia|apply seq_NoDup].
    - pose proof (Permutation_length (cg_keys _ _ _ G)) as H. unfold label_keys in H.
      rewrite !map_length, !seq_length in *. lia.
    - intros x Hx. apply in_map_iff in Hx. destruct Hx as (i & <- & Hi). apply in_seq in Hi.
      destruct (nth_error L i) as [l|] eqn:E; [|apply nth_error_None in E; lia].
      apply (cg_labels _ _ _ G) in E. unfold has_number in E. apply dict_get_In in E.
      apply in_map_iff. exists (Z.of_nat i, l). auto.
  Qed.
  Lemma items_NoDup : NoDup (map fst d).
  Proof.
    eapply Permutation_NoDup; [symmetry; apply items_keys|].
    apply FinFun.Injective_map_NoDup; [intros a b; lia|apply seq_NoDup].
  Qed.
  Lemma items_number k l : In (k, l) d -> k = Z.of_nat (Z.to_nat k) /\ has_number e l (Z.to_nat k).
  Proof.
    intros Hi. assert (Hk : In k (map fst d)) by (apply in_map_iff; exists (k, l); auto).
    apply (Permutation_in _ items_keys) in Hk. apply in_map_iff in Hk. destruct Hk as (i & <- & _).
    rewrite Nat2Z.id. split; [reflexivity|]. unfold has_number. apply dict_In_get; [exact items_NoDup|exact Hi].
  Qed.
  Lemma items_labels : Permutation (map snd d) L.
  Proof.
    assert (E : map snd d = map (fun k => nth (Z.to_nat k) L EmptyString) (map fst d)).
    { rewrite map_map. apply map_ext_in. intros [k l] Hi. cbn. apply items_number in Hi. destruct Hi as [_ Hi].
      apply (cg_labels _ _ _ G) in Hi. symmetry. apply nth_error_nth. exact Hi. }
    rewrite E. etransitivity; [apply Permutation_map, items_keys|]. rewrite map_map.
    erewrite map_ext; [|intros i; rewrite Nat2Z.id; reflexivity]. rewrite map_nth_seq. reflexivity.
  Qed.
End Items.

(* ---------------------------------------------------------------- the metric lists *)
Section Metrics.
  Variable cs : list classification.
  Hypothesis Hdist : Forall distinct_candidates cs.
  Variable w : cview.
  Variable e : ceval.
  Hypothesis He : cls_evaluator cs w e.
  Hypothesis Hfew : few_labels cs.
  Local Notation L := (labels_of cs).

  Let G : cgood cs w e := ev_good cs Hdist w e He.

  Lemma per_label_table {V} (f : counts -> V) tol hm thrs datums sel : expresses cs datums sel ->
    per_label e f (combine thrs (cls_counts tol hm thrs datums e))
    = table_of (map snd (ce_labels e)) thrs (fun l t => f (data_counts (cselect w sel) hm (pass_counts tol t) cs l)).
  Proof.
    intros Hs. unfold per_label, table_of. rewrite map_map. f_equal. apply map_ext_in. intros [k l] Hi. cbn [fst snd].
    destruct (items_number cs w e G k l Hi) as [_ Hn].
    apply map_combine_nth. intros j thr Hj.
    destruct (ev_counts cs Hdist w e He tol hm thrs datums sel j thr l _ Hfew Hs Hj Hn) as (row & Hr & Hc).
    exists row. split; [exact Hr|]. cbn [fst snd]. rewrite Hc. reflexivity.
  Qed.

  Lemma accuracy_list tol hm thrs datums sel : expresses cs datums sel ->
    map (fun tr => (fst tr, accuracy (map n_tp (snd tr)) (snd (cls_info (fun _ => true) e)))) (combine thrs (cls_counts tol hm thrs datums e))
    = map (fun t => (t, data_accuracy w (cselect w sel) hm (pass_counts tol t) cs)) thrs.
  Proof.
    intros Hs. unfold cls_counts. rewrite evaluate_counts_total.
    apply map_combine_nth. intros k x Hx. eexists. split; [apply map_nth_error; exact Hx|]. cbn [fst snd]. f_equal.
    unfold cls_info. cbn [snd]. rewrite map_map, (ev_n cs Hdist w e He), (ev_visible cs Hdist w e He). unfold accuracy.
    pose proof (ev_visible_pos cs Hdist w e He) as Hp. destruct (Nat.eqb_spec (countb (visible w) cs) 0) as [E|_]; [lia|].
    rewrite (tp_sum_view cs (ev_acc cs w e He) Hdist w e G datums sel Hs Hfew tol x hm). reflexivity.
  Qed.

  Theorem metrics_report tol hm thrs datums sel : expresses cs datums sel -> thrs <> [] ->
    exists ls, Permutation ls L /\ ls = map snd (ce_labels e) /\
    let u := cselect w sel in let c l t := data_counts u hm (pass_counts tol t) cs l in
    report_metrics e tol hm thrs datums = Some (MkMetrics
      (map (fun t => (t, data_accuracy w u hm (pass_counts tol t) cs)) thrs)
      (table_of ls thrs c)
      (table_of ls thrs (fun l t => precision (c l t)))
      (table_of ls thrs (fun l t => recall (c l t)))
      (table_of ls thrs (fun l t => f1 (precision (c l t)) (recall (c l t))))).
  Proof.
    intros Hs Hne. exists (map snd (ce_labels e)). split; [apply (items_labels cs w e G)|]. split; [reflexivity|].
    cbn zeta. unfold report_metrics. destruct thrs as [|t0 ts] eqn:Et; [congruence|]. rewrite <- Et. cbn zeta. f_equal.
    rewrite (accuracy_list tol hm thrs datums sel Hs), !(per_label_table _ tol hm thrs datums sel Hs). reflexivity.
  Qed.

  Theorem rocauc_report :
    exists ls, Permutation ls L /\ ls = map snd (ce_labels e) /\ map fst (fst (report_rocauc e)) = ls /\
    (forall l q, In (l, q) (fst (report_rocauc e)) -> exists i v, has_number e l i /\ q = Some v /\ nth_error (cls_rocauc e) i = Some v) /\
    snd (report_rocauc e) = mean (cls_rocauc e).
  Proof.
    exists (map snd (ce_labels e)). split; [apply (items_labels cs w e G)|]. split; [reflexivity|].
    unfold report_rocauc. cbn [fst snd]. split; [rewrite map_map; apply map_ext; reflexivity|]. split; [|reflexivity].
    intros l q Hi. apply in_map_iff in Hi. destruct Hi as ([k l'] & [= <- <-] & Hi). cbn [fst snd].
    destruct (items_number cs w e G _ _ Hi) as [_ Hn]. exists (Z.to_nat k).
    destruct (nth_error (cls_rocauc e) (Z.to_nat k)) as [v|] eqn:E; [exists v; auto|]. exfalso.
    apply nth_error_None in E.
    assert (Hl : length (cls_rocauc e) = length (ce_labels e)) by (unfold cls_rocauc, compute_rocauc; rewrite map_length, seq_length; reflexivity).
    rewrite Hl, (ev_n cs Hdist w e He) in E. apply (ev_labels cs Hdist w e He) in Hn.
    assert (Z.to_nat k < length L) by (apply nth_error_Some; congruence). lia.
  Qed.
End Metrics.

(* ---------------------------------------------------------------- string dictionaries *)
Section SDict.
  Context {V : Type}.
  Implicit Type d : list (string * V).
  Lemma sget_sput k v d k' : sget (sput k v d) k' = if String.eqb k' k then Some v else sget d k'.
  Proof.
    induction d as [|[a b] t IH]; cbn.
    - destruct (String.eqb k' k); reflexivity.
    - destruct (String.eqb_spec k a) as [->|N]; cbn.
      + destruct (String.eqb_spec k' a); reflexivity.
      + rewrite IH. destruct (String.eqb_spec k' a) as [->|N2]; [|reflexivity].
        destruct (String.eqb_spec a k); [congruence|reflexivity].
  Qed.
  Lemma sput_new k v d : ~ In k (map fst d) -> sput k v d = d ++ [(k, v)].
  Proof.
    induction d as [|[a b] t IH]; cbn; [reflexivity|]. intros H.
    destruct (String.eqb_spec k a) as [->|N]; [tauto|]. rewrite IH; tauto.
  Qed.
  Lemma sput_last k v v' d : ~ In k (map fst d) -> sput k v (d ++ [(k, v')]) = d ++ [(k, v)].
  Proof.
    induction d as [|[a b] t IH]; cbn.
    - rewrite String.eqb_refl. reflexivity.
    - intros H. destruct (String.eqb_spec k a) as [->|N]; [tauto|]. rewrite IH; tauto.
  Qed.
  Lemma sget_last k v d : ~ In k (map fst d) -> sget (d ++ [(k, v)]) k = Some v.
  Proof.
    induction d as [|[a b] t IH]; cbn.
    - rewrite String.eqb_refl. reflexivity.
    - intros H. destruct (String.eqb_spec k a) as [->|N]; [tauto|]. apply IH. tauto.
  Qed.
  Lemma sget_none k d : ~ In k (map fst d) -> sget d k = None.
  Proof.
    induction d as [|[a b] t IH]; cbn; [reflexivity|]. intros H.
    destruct (String.eqb_spec k a) as [->|N]; [tauto|]. apply IH. tauto.
  Qed.
  Lemma sget_In k v d : NoDup (map fst d) -> (sget d k = Some v <-> In (k, v) d).
  Proof.
    induction d as [|[a b] t IH]; cbn; [split; [discriminate|tauto]|]. intros Hn. inversion Hn; subst.
    destruct (String.eqb_spec k a) as [->|N].
    - split; [intros [= ->]; auto|]. intros [[= ->]|Hi]; [reflexivity|]. exfalso. apply H1, in_map_iff. exists (a, v). auto.
    - rewrite (IH H2). split; [auto|]. intros [[= ? ?]|]; [congruence|auto].
  Qed.
  Lemma fold_sput {A} (f : A -> string) (g : A -> V) (l : list A) : forall d, NoDup (map f l) ->
    (forall x, In x l -> ~ In (f x) (map fst d)) ->
    fold_left (fun acc x => sput (f x) (g x) acc) l d = d ++ map (fun x => (f x, g x)) l.
  Proof.
    induction l as [|x l IH]; intros d Hn Hd; [cbn; rewrite app_nil_r; reflexivity|].
    cbn [fold_left map]. inversion Hn; subst. rewrite (sput_new (f x)) by (apply Hd; left; reflexivity).
    rewrite IH; [rewrite <- app_assoc; reflexivity|assumption|].
    intros y Hy Hin. rewrite map_app in Hin. apply in_app_iff in Hin. cbn in Hin. destruct Hin as [Hin|[E|[]]].
    - apply (Hd y (or_intror Hy) Hin).
    - apply H1. rewrite E. apply in_map. exact Hy.
  Qed.
End SDict.

Section Matrix.
  Variable e : ceval.
  Hypothesis Hnd : NoDup (map snd (ce_labels e)).
  Variable M : confusion.

  Lemma row_fold (k : Z) (l : string) : forall items d r, ~ In l (map fst d) -> NoDup (map snd items) ->
    (forall x, In x items -> ~ In (snd x) (map fst r)) ->
    fold_left (put_cell M k l) items (d ++ [(l, r)])
    = d ++ [(l, r ++ map (fun pl => (snd pl, cm M k (fst pl))) items)].
  Proof.
    induction items as [|x items IH]; intros d r Hd Hn Hr; [cbn; rewrite app_nil_r; reflexivity|].
    cbn [fold_left]. unfold put_cell at 2. cbn zeta. rewrite (sget_last l r d Hd), (sget_last l r d Hd), (sput_last l _ r d Hd).
    inversion Hn; subst. rewrite (sput_new (snd x)) by (apply Hr; left; reflexivity).
    rewrite (IH d _ Hd H2).
    - cbn [map]. rewrite <- app_assoc. reflexivity.
    - intros y Hy Hin. rewrite map_app in Hin. apply in_app_iff in Hin. cbn in Hin. destruct Hin as [Hin|[E|[]]].
      + apply (Hr y (or_intror Hy) Hin).
      + apply H1. rewrite E. apply in_map. exact Hy.
  Qed.

  Lemma row_start (k : Z) (l : string) d items : ~ In l (map fst d) -> NoDup (map snd items) -> items <> [] ->
    fold_left (put_cell M k l) items d
    = d ++ [(l, map (fun pl => (snd pl, cm M k (fst pl))) items)].
  Proof.
    intros Hd Hn Hne. destruct items as [|x items]; [congruence|]. cbn [fold_left]. unfold put_cell at 2. cbn zeta.
    rewrite (sget_none l d Hd), (sput_new l [] d Hd), (sget_last l [] d Hd), (sput_last l _ [] d Hd).
    inversion Hn; subst. cbn [sput]. rewrite (row_fold k l items d _ Hd H2); [reflexivity|].
    intros y Hy [E|[]]. cbn in E. apply H1. rewrite E. apply in_map. exact Hy.
  Qed.

  Lemma unpack_gen : forall items d u, NoDup (map snd items) -> ce_labels e <> [] ->
    (forall x, In x items -> ~ In (snd x) (map fst d)) -> (forall x, In x items -> ~ In (snd x) (map fst u)) ->
    fold_left (fun acc kl =>
      (fold_left (put_cell M (fst kl) (snd kl)) (ce_labels e) (fst acc),
       sput (snd kl) (cm_unmatched M (fst kl)) (snd acc))) items (d, u)
    = (d ++ map (fun kl => (snd kl, map (fun pl => (snd pl, cm M (fst kl) (fst pl))) (ce_labels e))) items,
       u ++ map (fun kl => (snd kl, cm_unmatched M (fst kl))) items).
  Proof.
    induction items as [|x items IH]; intros d u Hn Hne Hd Hu; [cbn; rewrite !app_nil_r; reflexivity|].
    cbn [fold_left fst snd]. inversion Hn; subst.
    rewrite (row_start (fst x) (snd x) d (ce_labels e) (Hd x (or_introl eq_refl)) Hnd Hne).
    rewrite (sput_new (snd x) _ u) by (apply Hu; left; reflexivity).
    rewrite (IH _ _ H2 Hne).
    - cbn [map]. rewrite <- !app_assoc. reflexivity.
    - intros y Hy Hin. rewrite map_app in Hin. apply in_app_iff in Hin. cbn in Hin. destruct Hin as [Hin|[E|[]]].
      + apply (Hd y (or_intror Hy) Hin).
      + apply H1. rewrite E. apply in_map. exact Hy.
    - intros y Hy Hin. rewrite map_app in Hin. apply in_app_iff in Hin. cbn in Hin. destruct Hin as [Hin|[E|[]]].
      + apply (Hu y (or_intror Hy) Hin).
      + apply H1. rewrite E. apply in_map. exact Hy.
  Qed.

  Lemma unpack_matrix_eq : ce_labels e <> [] -> unpack_matrix e M =
    (map (fun kl => (snd kl, map (fun pl => (snd pl, cm M (fst kl) (fst pl))) (ce_labels e))) (ce_labels e),
     map (fun kl => (snd kl, cm_unmatched M (fst kl))) (ce_labels e)).
  Proof. intros Hne. unfold unpack_matrix. rewrite (unpack_gen (ce_labels e) [] [] Hnd Hne); auto. Qed.
End Matrix.

Section Confusion.
  Variable cs : list classification.
  Hypothesis Hdist : Forall distinct_candidates cs.
  Variable w : cview.
  Variable e : ceval.
  Hypothesis He : cls_evaluator cs w e.
  Local Notation L := (labels_of cs).
  Let G : cgood cs w e := ev_good cs Hdist w e He.

  Lemma labels_nonempty : ce_labels e <> [].
  Proof.
    destruct (ev_nonempty cs Hdist w e He) as (c & Hc & _). pose proof (labels_of_gt cs c Hc) as Hl.
    intros E. pose proof (ev_n cs Hdist w e He) as Hn. rewrite E in Hn. destruct L; [destruct Hl|discriminate].
  Qed.

  Theorem confusion_report tol9 hm thrs datums sel : expresses cs datums sel -> thrs <> [] ->
    exists ls, Permutation ls L /\ ls = map snd (ce_labels e) /\
    exists out, report_confusion e tol9 hm thrs datums = Some out /\ map fst out = thrs /\
    forall k thr, nth_error thrs k = Some thr ->
      let u := cselect w sel in let pass := pass_cm tol9 (firstn (S k) thrs) in
      nth_error out k = Some (thr, (map (fun g => (g, map (fun p => (p, data_cell u hm pass cs g p)) ls)) ls,
                                    map (fun g => (g, data_missed u hm pass cs g)) ls)).
  Proof.
    intros Hs Hne. exists (map snd (ce_labels e)). split; [apply (items_labels cs w e G)|]. split; [reflexivity|].
    assert (Hnd : NoDup (map snd (ce_labels e))).
    { eapply Permutation_NoDup; [symmetry; apply (items_labels cs w e G)|apply labels_of_NoDup]. }
    unfold report_confusion. destruct thrs as [|t0 ts] eqn:Et; [congruence|]. rewrite <- Et. eexists. split; [reflexivity|].
    split.
    - rewrite map_map. rewrite (map_combine_nth _ (fun x => x)); [apply map_id|].
      intros k x Hx. destruct (ev_confusion cs Hdist w e He tol9 hm thrs datums sel k x Hs Hx) as (M & HM & _). exists M. auto.
    - intros k thr Hk. cbn zeta.
      destruct (ev_confusion cs Hdist w e He tol9 hm thrs datums sel k thr Hs Hk) as (M & HM & Hc & Hu). cbn zeta in Hc, Hu.
      rewrite (map_nth_error _ _ _ (nth_error_combine thrs _ k thr M Hk HM)). cbn [fst snd].
      rewrite (unpack_matrix_eq e Hnd M labels_nonempty), !map_map. do 3 f_equal.
      + apply map_ext_in. intros [i g] Hi. cbn [fst snd]. f_equal. rewrite !map_map. apply map_ext_in. intros [j p] Hj. cbn [fst snd]. f_equal.
        destruct (items_number cs w e G _ _ Hi) as [Ei Ni]. destruct (items_number cs w e G _ _ Hj) as [Ej Nj].
        rewrite Ei, Ej. exact (Hc g p _ _ Ni Nj).
      + apply map_ext_in. intros [i g] Hi. cbn [fst snd]. f_equal.
        destruct (items_number cs w e G _ _ Hi) as [Ei Ni]. rewrite Ei. exact (Hu g _ Ni).
  Qed.
End Confusion.
