(* C138: reports of classifications whose labels are renamed. *)
From Verif Require Import Prelude Counting CacheModel CacheSpec ClsModel ClsSpec ClsLabelProofs ClsProofs ClsConfProofs RocModel RocProofs RocMain RocCurve
  FlowModel FlowProofs FlowMore ClsLemmas ClsMore ClsFilterModel ClsFilterSpec ClsFilterProofs ClsFilterCounts ClsFilterMain ClsFilterRoc
  ClsReportModel ClsReportSpec ClsReportProofs ClsReportMore ClsOrderProofs ClsRescoreProofs ClsRescoreMain ClsRenameSpec.
From Coq Require Import String QArith.
Local Notation length := List.length (only parsing).
Local Notation concat := List.concat (only parsing).
Local Open Scope nat_scope.
Local Open Scope list_scope.

Definition rn (f : string -> string) (p : string * Z) : string * Z := (f (fst p), snd p).
Lemma combine_map_l (f : string -> string) (a : list string) : forall b : list Z, combine (map f a) b = map (rn f) (combine a b).
Proof. induction a as [|x t IH]; intros [|y b]; cbn; f_equal; auto. Qed.
Lemma candidates_crename h f c : candidates (crename h f c) = map (rn f) (candidates c).
Proof. unfold candidates, crename. cbn [c_predictions c_scores]. apply combine_map_l. Qed.
Lemma top_from_crename f l : forall best, top_from (rn f best) (map (rn f) l) = rn f (top_from best l).
Proof.
  induction l as [|x t IH]; intros best; [reflexivity|]. cbn [map top_from]. change (snd (rn f best)) with (snd best). change (snd (rn f x)) with (snd x).
  destruct (snd best <? snd x)%Z; apply IH.
Qed.
Lemma positives_crename h f hm pass c : positives hm pass (crename h f c) = map f (positives hm pass c).
Proof.
  unfold positives. destruct hm.
  - unfold top. rewrite candidates_crename. destruct (candidates c) as [|x t]; [reflexivity|]. cbn [map]. rewrite top_from_crename.
    destruct (top_from x t) as [l s]. cbn. destruct (pass s); reflexivity.
  - rewrite candidates_crename. induction (candidates c) as [|p t IH]; [reflexivity|]. cbn [map filter]. change (snd (rn f p)) with (snd p).
    destruct (pass (snd p)); cbn [map]; rewrite IH; reflexivity.
Qed.

(* names that stay apart *)
Lemma apart_eqb f L a b : names_apart f L -> In a L -> In b L -> String.eqb (f a) (f b) = String.eqb a b.
Proof.
  intros H Ha Hb. destruct (String.eqb_spec a b) as [->|N]; [apply String.eqb_refl|]. apply String.eqb_neq. intros E. apply N. apply H; assumption.
Qed.
Lemma apart_smem f L l ls : names_apart f L -> In l L -> incl ls L -> smem (f l) (map f ls) = smem l ls.
Proof.
  intros H Hl. unfold smem. induction ls as [|x t IH]; intros Hi; [reflexivity|]. cbn [map existsb].
  rewrite (apart_eqb f L l x H Hl (Hi x (or_introl eq_refl))), IH; [reflexivity|]. intros y Hy. apply Hi. right. exact Hy.
Qed.
Lemma first_appearance_map f L : names_apart f L -> forall l seen, incl seen L -> incl l L ->
  first_appearance (map f seen) (map f l) = map f (first_appearance seen l).
Proof.
  intros H l. induction l as [|x t IH]; intros seen Hs Hl; [reflexivity|]. cbn [map first_appearance].
  rewrite (apart_smem f L x seen H (Hl x (or_introl eq_refl)) Hs).
  assert (Ht : incl t L) by (intros y Hy; apply Hl; right; exact Hy).
  destruct (smem x seen); [apply IH; assumption|].
  change [f x] with (map f [x]). rewrite <- map_app. apply IH; [|exact Ht].
  intros y Hy. apply in_app_iff in Hy. destruct Hy as [Hy|[<-|[]]]; [apply Hs; exact Hy|apply Hl; left; reflexivity].
Qed.
Lemma filter_map_on {A B} (g : A -> B) (p : B -> bool) (q : A -> bool) l : (forall x, In x l -> p (g x) = q x) ->
  filter p (map g l) = map g (filter q l).
Proof.
  induction l as [|x t IH]; intros H; [reflexivity|]. cbn [map filter]. rewrite (H x (or_introl eq_refl)), IH by (intros; apply H; right; assumption).
  destruct (q x); reflexivity.
Qed.
Lemma existsb_map_on {A B} (g : A -> B) (p : B -> bool) (q : A -> bool) l : (forall x, In x l -> p (g x) = q x) ->
  existsb p (map g l) = existsb q l.
Proof.
  induction l as [|x t IH]; intros H; [reflexivity|]. cbn [map existsb]. rewrite (H x (or_introl eq_refl)), IH by (intros; apply H; right; assumption).
  reflexivity.
Qed.
Lemma NoDup_map_on f (l : list string) : names_apart f l -> NoDup l -> NoDup (map f l).
Proof.
  intros H N. induction N as [|x t Hx N IH]; [constructor|]. cbn. constructor.
  - intros E. apply in_map_iff in E. destruct E as (y & E & Hy). apply Hx. rewrite <- (H y x (or_intror Hy) (or_introl eq_refl) E). exact Hy.
  - apply IH. intros a b Ha Hb. apply H; right; assumption.
Qed.

Section Data.
  Variables h f : string -> string.
  Variable cs : list classification.
  Notation cs' := (map (crename h f) cs).
  Notation L := (labels_of cs).
  Hypothesis Hf : names_apart f L.

  Lemma pred_in c l : In c cs -> In l (c_predictions c) -> In l L.
  Proof.
    intros Hc Hl. unfold labels_of. apply first_appearance_In. right. apply in_concat. exists (datum_labels c).
    split; [apply in_map_iff; exists c; auto|right; exact Hl].
  Qed.
  Lemma preds_incl c : In c cs -> incl (c_predictions c) L.
  Proof. intros Hc l. apply pred_in. exact Hc. Qed.
  Lemma labels_crename : labels_of cs' = map f L.
  Proof.
    unfold labels_of at 1.
    assert (E : concat (map (fun c => c_groundtruth c :: c_predictions c) cs') = map f (concat (map (fun c => c_groundtruth c :: c_predictions c) cs))).
    { rewrite map_map, concat_map, map_map. reflexivity. }
    rewrite E. change ([] : list string) with (map f []). apply (first_appearance_map f L Hf).
    - intros x [].
    - intros x Hx. unfold labels_of. apply first_appearance_In. right. exact Hx.
  Qed.
  Lemma distinct_crename : Forall distinct_candidates cs -> Forall distinct_candidates cs'.
  Proof.
    intros F. rewrite Forall_forall in F |- *. intros c' Hc'. apply in_map_iff in Hc'. destruct Hc' as (c & <- & Hc).
    apply NoDup_map_on; [|exact (F c Hc)]. intros a b Ha Hb. apply Hf; apply (pred_in c); assumption.
  Qed.
  Lemma few_crename : few_labels cs -> few_labels cs'.
  Proof. unfold few_labels. rewrite labels_crename, map_length. auto. Qed.

  Section View.
    Variables u u' : cview.
    Hypothesis Hu : renamed_view h f cs u u'.

    Lemma visible_crename c : In c cs -> visible u' (crename h f c) = visible u c.
    Proof. intros Hc. unfold visible. cbn [crename c_predictions]. apply existsb_map_on. intros l Hl. apply Hu; assumption. Qed.
    Lemma viewed_crename c : In c cs -> c_predictions (viewed u' (crename h f c)) = map f (c_predictions (viewed u c)).
    Proof.
      intros Hc. unfold viewed. cbn [c_predictions]. rewrite candidates_crename.
      rewrite (filter_map_on (rn f) _ (fun p => u c (fst p))).
      - rewrite !map_map. reflexivity.
      - intros [l s] Hp. apply in_combine_l in Hp. apply Hu; assumption.
    Qed.
    Lemma viewed_incl c : In c cs -> incl (c_predictions (viewed u c)) L.
    Proof.
      intros Hc l Hl. unfold viewed in Hl. cbn [c_predictions] in Hl. apply in_map_iff in Hl. destruct Hl as ([k s] & <- & Hl). apply filter_In in Hl.
      destruct Hl as [Hl _]. apply in_combine_l in Hl. apply (pred_in c); assumption.
    Qed.

    Variable hm : bool.
    Variable pass : Z -> bool.
    Lemma vpositives_crename c : In c cs -> vpositives u' hm pass (crename h f c) = map f (vpositives u hm pass c).
    Proof.
      intros Hc. unfold vpositives. rewrite positives_crename. apply filter_map_on. intros l Hl. apply Hu; [exact Hc|].
      apply (positives_in hm pass c l Hl).
    Qed.
    Lemma vpositives_incl c : In c cs -> incl (vpositives u hm pass c) L.
    Proof. intros Hc l Hl. apply filter_In in Hl. destruct Hl as [Hl _]. apply (pred_in c); [exact Hc|]. apply (positives_in hm pass c l Hl). Qed.

    Lemma gt_crename c l : In c cs -> In l L -> String.eqb (c_groundtruth (crename h f c)) (f l) = String.eqb (c_groundtruth c) l.
    Proof. intros Hc Hl. cbn [crename c_groundtruth]. apply (apart_eqb f L); [exact Hf|apply labels_of_gt; exact Hc|exact Hl]. Qed.
    Lemma has_positive_crename c l : In c cs -> In l L -> smem (f l) (vpositives u' hm pass (crename h f c)) = smem l (vpositives u hm pass c).
    Proof. intros Hc Hl. rewrite (vpositives_crename c Hc). apply (apart_smem f L); [exact Hf|exact Hl|apply vpositives_incl; exact Hc]. Qed.
    Lemma data_counts_crename l : In l L -> data_counts u' hm pass cs' (f l) = data_counts u hm pass cs l.
    Proof.
      intros Hl. unfold data_counts. f_equal; apply countb_map_on; intros c Hc; unfold v_tp, v_fp, v_fn, v_tn;
        rewrite (gt_crename c l Hc Hl), (has_positive_crename c l Hc Hl), ?(viewed_crename c Hc),
          ?(apart_smem f L l (c_predictions (viewed u c)) Hf Hl (viewed_incl c Hc)); try reflexivity.
      do 2 f_equal. rewrite (vpositives_crename c Hc). apply existsb_map_on. intros x Hx. f_equal.
      apply (apart_eqb f L); [exact Hf|apply (vpositives_incl c Hc); exact Hx|exact Hl].
    Qed.
    Lemma data_cell_crename g p : In g L -> In p L -> data_cell u' hm pass cs' (f g) (f p) = data_cell u hm pass cs g p.
    Proof.
      intros Hg Hp. unfold data_cell. apply countb_map_on. intros c Hc. rewrite (gt_crename c g Hc Hg), (has_positive_crename c p Hc Hp). reflexivity.
    Qed.
    Lemma data_missed_crename g : In g L -> data_missed u' hm pass cs' (f g) = data_missed u hm pass cs g.
    Proof.
      intros Hg. unfold data_missed. apply countb_map_on. intros c Hc.
      rewrite (gt_crename c g Hc Hg), (visible_crename c Hc), (vpositives_crename c Hc). destruct (vpositives u hm pass c); reflexivity.
    Qed.
    Lemma data_accuracy_crename w w' : renamed_view h f cs w w' -> data_accuracy w' u' hm pass cs' = data_accuracy w u hm pass cs.
    Proof.
      intros Hw. unfold data_accuracy.
      rewrite (countb_map_on (crename h f) (fun c => smem (c_groundtruth c) (vpositives u' hm pass c)) (fun c => smem (c_groundtruth c) (vpositives u hm pass c))).
      2:{ intros c Hc. cbn [crename c_groundtruth]. apply has_positive_crename; [exact Hc|apply labels_of_gt; exact Hc]. }
      rewrite (countb_map_on (crename h f) (visible w') (visible w)); [reflexivity|].
      intros c Hc. unfold visible. cbn [crename c_predictions]. apply existsb_map_on. intros l Hl. apply Hw; assumption.
    Qed.
    Lemma outcomes_crename l : In l L -> outcomes (f l) (reduced u' cs') = outcomes l (reduced u cs).
    Proof.
      intros Hl. rewrite !outcomes_reduced, map_map. f_equal. apply map_ext_in. intros c Hc.
      rewrite candidates_crename, (filter_map_on (rn f) _ (fun p => String.eqb (fst p) l)).
      2:{ intros [k s] Hp. apply in_combine_l in Hp. apply (apart_eqb f L); [exact Hf|apply (pred_in c); assumption|exact Hl]. }
      destruct (filter (fun p => String.eqb (fst p) l) (candidates c)) as [|[k s] r] eqn:E; [destruct (u' _ _), (u _ _); reflexivity|].
      assert (Hk : In (k, s) (filter (fun p => String.eqb (fst p) l) (candidates c))) by (rewrite E; left; reflexivity).
      apply filter_In in Hk. destruct Hk as [Hk Ek]. cbn [fst] in Ek. apply String.eqb_eq in Ek. subst k. apply in_combine_l in Hk.
      rewrite (Hu c l Hc Hk), map_map, (gt_crename c l Hc Hl). reflexivity.
    Qed.
    Lemma vgts_crename l : In l L -> vgts cs' u' (f l) = vgts cs u l.
    Proof.
      intros Hl. unfold vgts. apply countb_map_on. intros c Hc. rewrite (visible_crename c Hc), (gt_crename c l Hc Hl). reflexivity.
    Qed.
  End View.

  Lemma cselect_crename w w' s s' : renamed_view h f cs w w' -> renamed_view h f cs s s' -> renamed_view h f cs (cselect w s) (cselect w' s').
  Proof. intros A B c l Hc Hl. unfold cselect. rewrite (A c l Hc Hl), (B c l Hc Hl). reflexivity. Qed.
End Data.

Lemma table_rename {V} f ls thrs (a b : string -> Z -> V) : (forall l t, In l ls -> b (f l) t = a l t) ->
  map (rename_entry f) (table_of ls thrs a) = table_of (map f ls) thrs b.
Proof.
  intros H. unfold table_of. rewrite concat_map, !map_map. f_equal. apply map_ext_in. intros l Hl. rewrite map_map. apply map_ext.
  intros t. cbn. rewrite (H l t Hl). reflexivity.
Qed.

Section Reports.
  Variables h f : string -> string.
  Variable cs : list classification.
  Notation cs' := (map (crename h f) cs).
  Hypothesis Hf : names_apart f (labels_of cs).
  Hypothesis Hdist : Forall distinct_candidates cs.
  Variables w w' : cview.
  Hypothesis Hw : renamed_view h f cs w w'.
  Variables e e' : ceval.
  Hypothesis He : cls_evaluator cs w e.
  Hypothesis He' : cls_evaluator cs' w' e'.

  Theorem renamed_metrics tol hm thrs d d' sel sel' : few_labels cs -> thrs <> [] -> expresses cs d sel -> expresses cs' d' sel' ->
    renamed_view h f cs sel sel' ->
    exists m m', report_metrics e tol hm thrs d = Some m /\ report_metrics e' tol hm thrs d' = Some m' /\
      mt_accuracy m' = mt_accuracy m /\
      Permutation (mt_counts m') (map (rename_entry f) (mt_counts m)) /\ Permutation (mt_precision m') (map (rename_entry f) (mt_precision m)) /\
      Permutation (mt_recall m') (map (rename_entry f) (mt_recall m)) /\ Permutation (mt_f1 m') (map (rename_entry f) (mt_f1 m)).
  Proof.
    intros Hfew Hne H1 H2 Hs.
    destruct (metrics_report cs Hdist w e He Hfew tol hm thrs d sel H1 Hne) as (ls1 & P1 & _ & E1).
    destruct (metrics_report cs' (distinct_crename h f cs Hf Hdist) w' e' He' (few_crename h f cs Hf Hfew) tol hm thrs d' sel' H2 Hne) as (ls2 & P2 & _ & E2).
    cbn zeta in E1, E2. rewrite E1, E2. do 2 eexists. split; [reflexivity|]. split; [reflexivity|].
    cbn [mt_accuracy mt_counts mt_precision mt_recall mt_f1].
    pose proof (cselect_crename h f cs w w' sel sel' Hw Hs) as HU.
    assert (PL : Permutation ls2 (map f ls1)) by (rewrite P2, labels_crename, P1 by exact Hf; reflexivity).
    assert (D : forall l t, In l ls1 -> data_counts (cselect w' sel') hm (pass_counts tol t) cs' (f l) = data_counts (cselect w sel) hm (pass_counts tol t) cs l).
    { intros l t Hl. apply data_counts_crename; [exact Hf|exact HU|]. apply (Permutation_in l P1 Hl). }
    split. { apply map_ext. intros t. rewrite (data_accuracy_crename h f cs Hf _ _ HU hm _ w w' Hw). reflexivity. }
    split; [|split; [|split]];
      (erewrite table_rename; [apply table_of_perm; [exact PL|intros l t; reflexivity]|intros l t Hl; cbn beta; rewrite (D l t Hl); reflexivity]).
  Qed.

  Theorem renamed_confusion tol9 hm thrs d d' sel sel' : thrs <> [] -> expresses cs d sel -> expresses cs' d' sel' -> renamed_view h f cs sel sel' ->
    exists o o', report_confusion e tol9 hm thrs d = Some o /\ report_confusion e' tol9 hm thrs d' = Some o' /\
      map fst o = thrs /\ map fst o' = thrs /\
      forall k t1 C1 U1 t2 C2 U2, nth_error o k = Some (t1, (C1, U1)) -> nth_error o' k = Some (t2, (C2, U2)) ->
        (forall g p, In g (labels_of cs) -> In p (labels_of cs) -> cell C2 (f g) (f p) = cell C1 g p /\ exists n, cell C1 g p = Some n) /\
        (forall g, In g (labels_of cs) -> sget U2 (f g) = sget U1 g /\ exists n, sget U1 g = Some n).
  Proof.
    intros Hne H1 H2 Hs.
    destruct (confusion_report cs Hdist w e He tol9 hm thrs d sel H1 Hne) as (ls1 & P1 & _ & o1 & E1 & F1 & N1).
    destruct (confusion_report cs' (distinct_crename h f cs Hf Hdist) w' e' He' tol9 hm thrs d' sel' H2 Hne) as (ls2 & P2 & _ & o2 & E2 & F2 & N2).
    exists o1, o2. split; [exact E1|]. split; [exact E2|]. split; [exact F1|]. split; [exact F2|].
    assert (L1 : length o1 = length thrs) by (rewrite <- F1, map_length; reflexivity).
    intros k t1 C1 U1 t2 C2 U2 K1 K2.
    assert (Hk : k < length thrs) by (rewrite <- L1; apply nth_error_Some; congruence).
    destruct (nth_error thrs k) as [thr|] eqn:Et; [|apply nth_error_None in Et; lia].
    pose proof (N1 k thr Et) as Q1. pose proof (N2 k thr Et) as Q2. cbn zeta in Q1, Q2.
    rewrite Q1 in K1. rewrite Q2 in K2. injection K1 as <- <- <-. injection K2 as <- <- <-.
    pose proof (cselect_crename h f cs w w' sel sel' Hw Hs) as HU.
    assert (M : forall g, In g (labels_of cs) -> smem g ls1 = true /\ smem (f g) ls2 = true).
    { intros g Hg. split; apply smem_In; [apply (Permutation_in g (Permutation_sym P1) Hg)|].
      apply (Permutation_in _ (Permutation_sym P2)). rewrite (labels_crename h f cs Hf). apply in_map. exact Hg. }
    split.
    - intros g p Hg Hp. rewrite !cell_map. destruct (M g Hg) as [-> ->], (M p Hp) as [-> ->]. cbn [andb].
      rewrite (data_cell_crename h f cs Hf _ _ HU) by assumption. split; [reflexivity|eexists; reflexivity].
    - intros g Hg. rewrite !sget_map. destruct (M g Hg) as [-> ->]. rewrite (data_missed_crename h f cs Hf _ _ HU) by assumption.
      split; [reflexivity|eexists; reflexivity].
  Qed.

  Theorem renamed_info d d' sel sel' : expresses cs d sel -> expresses cs' d' sel' -> renamed_view h f cs sel sel' -> cls_info d' e' = cls_info d e.
  Proof.
    intros H1 H2 Hs. rewrite (ev_info cs Hdist w e He d sel H1), (ev_info cs' (distinct_crename h f cs Hf Hdist) w' e' He' d' sel' H2).
    rewrite (labels_crename h f cs Hf), map_length, map_map.
    f_equal; [f_equal|].
    - f_equal. apply map_ext_in. intros c Hc. cbn [crename c_predictions]. apply countb_map_on. intros l Hl. apply Hw; assumption.
    - apply countb_map_on. intros c Hc. apply (visible_crename h f cs). apply (cselect_crename h f cs); assumption. exact Hc.
  Qed.

  Theorem renamed_rocauc l : In l (labels_of cs) -> safe_curve w cs e l -> safe_curve w' cs' e' (f l) ->
    exists v v', sget (fst (report_rocauc e)) l = Some (Some v) /\ sget (fst (report_rocauc e')) (f l) = Some (Some v') /\ (v == v')%Q.
  Proof.
    intros Hl S1 S2. pose proof (distinct_crename h f cs Hf Hdist) as Hdist'.
    destruct (In_nth_error _ _ Hl) as (i & N).
    assert (N2 : nth_error (labels_of cs') i = Some (f l)) by (rewrite (labels_crename h f cs Hf), nth_error_map, N; reflexivity).
    apply (ev_labels cs Hdist w e He) in N. apply (ev_labels cs' Hdist' w' e' He') in N2.
    destruct (ev_rocauc cs Hdist w e He l i N (S1 _ N)) as (rows & v & E & V & S & P & _).
    destruct (ev_rocauc cs' Hdist' w' e' He' (f l) i N2 (S2 _ N2)) as (rows' & v' & E' & V' & S' & P' & _).
    exists v, v'. split; [exact (rocauc_entry w cs e Hdist He l i v N E)|].
    split; [exact (rocauc_entry w' cs' e' Hdist' He' (f l) i v' N2 E')|].
    rewrite V, V'. rewrite (outcomes_crename h f cs Hf w w' Hw l Hl) in P' |- *. rewrite (vgts_crename h f cs Hf w w' Hw l Hl).
    rewrite (label_curve_outc rows rows'); [reflexivity|]. apply sorted_perm_eq; auto. rewrite P, P'. reflexivity.
  Qed.
  Theorem renamed_mean_rocauc : (forall l, In l (labels_of cs) -> safe_curve w cs e l /\ safe_curve w' cs' e' (f l)) ->
    exists m m', snd (report_rocauc e) = Some m /\ snd (report_rocauc e') = Some m' /\ (m == m')%Q.
  Proof.
    intros Hsafe. unfold report_rocauc. cbn [snd]. pose proof (distinct_crename h f cs Hf Hdist) as Hdist'.
    assert (N : forall cs w e (Hd : Forall distinct_candidates cs) (He : cls_evaluator cs w e), length (cls_rocauc e) = length (labels_of cs) /\ cls_rocauc e <> []).
    { clear. intros cs w e Hd He. assert (Hl : length (cls_rocauc e) = length (labels_of cs)).
      { unfold cls_rocauc, compute_rocauc. rewrite map_length, seq_length. apply (ev_n cs Hd w e He). }
      split; [exact Hl|]. intros E. rewrite E in Hl. pose proof (labels_nonempty cs Hd w e He) as Hne.
      pose proof (ev_n cs Hd w e He) as Hn. rewrite <- Hl in Hn. destruct (ce_labels e); [congruence|discriminate]. }
    destruct (N cs w e Hdist He) as [L1 Z1]. destruct (N cs' w' e' Hdist' He') as [L2 Z2].
    assert (M : forall l : list Q, l <> [] -> mean l = Some (qsum l / inject_Z (Z.of_nat (length l)))%Q) by (intros [|a t] H; [congruence|reflexivity]).
    rewrite (M _ Z1), (M _ Z2). do 2 eexists. split; [reflexivity|]. split; [reflexivity|].
    rewrite (labels_crename h f cs Hf), map_length in L2. rewrite L1, L2.
    set (g l := match sget (fst (report_rocauc e)) l with Some (Some v) => v | _ => 0%Q end).
    assert (S1 : (qsum (cls_rocauc e) == qsum (map g (labels_of cs)))%Q).
    { apply qsum_nth; [exact L1|]. intros i x Hx. assert (Hi : i < length (labels_of cs)) by (apply nth_error_Some; congruence).
      destruct (nth_error (cls_rocauc e) i) as [v|] eqn:Ev; [|apply nth_error_None in Ev; lia].
      exists v. split; [reflexivity|]. apply (ev_labels cs Hdist w e He) in Hx. unfold g.
      rewrite (rocauc_entry w cs e Hdist He x i v Hx Ev). reflexivity. }
    assert (S2 : (qsum (cls_rocauc e') == qsum (map g (labels_of cs)))%Q).
    { apply qsum_nth; [exact L2|]. intros i x Hx. assert (Hi : i < length (labels_of cs)) by (apply nth_error_Some; congruence).
      destruct (nth_error (cls_rocauc e') i) as [v|] eqn:Ev; [|apply nth_error_None in Ev; lia].
      exists v. split; [reflexivity|].
      pose proof (nth_error_In _ _ Hx) as Hx1.
      destruct (Hsafe x Hx1) as [Q1 Q2]. destruct (renamed_rocauc x Hx1 Q1 Q2) as (v1 & v2 & V1 & V2 & E).
      assert (Hy : nth_error (labels_of cs') i = Some (f x)) by (rewrite (labels_crename h f cs Hf), nth_error_map, Hx; reflexivity).
      apply (ev_labels cs' Hdist' w' e' He') in Hy.
      rewrite (rocauc_entry w' cs' e' Hdist' He' (f x) i v Hy Ev) in V2. injection V2 as <-. unfold g. rewrite V1. symmetry. exact E. }
    rewrite S1, S2. reflexivity.
  Qed.
End Reports.
