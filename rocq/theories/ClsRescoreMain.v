(* C127: the reports of an evaluator over rescored data. *)
From Verif Require Import Prelude Counting CacheModel CacheSpec ClsModel ClsSpec ClsLabelProofs ClsProofs ClsConfProofs RocModel RocProofs RocMain RocCurve
  FlowModel FlowProofs FlowMore ClsLemmas ClsMore ClsFilterModel ClsFilterSpec ClsFilterProofs ClsFilterCounts ClsFilterMain ClsFilterRoc
  ClsReportModel ClsReportSpec ClsReportProofs ClsReportMore ClsRescoreSpec ClsRescoreProofs.
From Coq Require Import String QArith.
Local Notation length := List.length (only parsing).
Local Notation concat := List.concat (only parsing).
Local Open Scope nat_scope.
Local Open Scope list_scope.

Lemma table_of_In {V} ls thrs (f : string -> Z -> V) l t v :
  In (l, t, v) (table_of ls thrs f) <-> In l ls /\ In t thrs /\ v = Some (f l t).
Proof.
  unfold table_of. rewrite in_concat. split.
  - intros (x & Hx & Hv). apply in_map_iff in Hx. destruct Hx as (l' & <- & Hl'). apply in_map_iff in Hv.
    destruct Hv as (t' & E & Ht'). injection E as <- <- <-. auto.
  - intros (A & B & ->). exists (map (fun t => (l, t, Some (f l t))) thrs). split; [apply in_map_iff; eauto|]. apply in_map_iff. eauto.
Qed.
Lemma Forall2_nth {A B} (R : A -> B -> Prop) a b : Forall2 R a b -> forall k x y, nth_error a k = Some x -> nth_error b k = Some y -> R x y.
Proof.
  induction 1 as [|x y a b H _ IH]; intros [|k] u v; cbn; try discriminate; [congruence|]. apply IH.
Qed.
Lemma Forall2_firstn {A B} (R : A -> B -> Prop) k : forall a b, Forall2 R a b -> Forall2 R (firstn k a) (firstn k b).
Proof. induction k as [|k IH]; intros a b H; [constructor|]. destruct H; cbn [firstn]; constructor; auto. Qed.

Section Rescored.
  Variable f : Z -> Z.
  Variable cs : list classification.
  Let cs' := map (crescore f) cs.
  Hypothesis Ho : keeps_order f (scores_in cs).
  Hypothesis Hdist : Forall distinct_candidates cs.
  Variables w w' : classification -> string -> bool.
  Hypothesis Hw : same_view f cs w w'.
  Variables e e' : ceval.
  Hypothesis He : cls_evaluator cs w e.
  Hypothesis He' : cls_evaluator cs' w' e'.
  Let Hdist' : Forall distinct_candidates cs' := distinct_crescore f cs Hdist.

  Lemma rs_labels_perm ls ls' : Permutation ls (labels_of cs) -> Permutation ls' (labels_of cs') -> Permutation ls ls'.
  Proof. intros A B. unfold cs' in B. rewrite labels_crescore in B. etransitivity; [exact A|symmetry; exact B]. Qed.

  Theorem rescored_metrics tol hm thrs thrs' d d' sel sel' : few_labels cs -> thrs <> [] ->
    expresses cs d sel -> expresses cs' d' sel' -> same_view f cs sel sel' ->
    keeps_near tol f (scores_in cs) -> Forall2 (same_cut f (scores_in cs)) thrs thrs' ->
    exists m m', report_metrics e tol hm thrs d = Some m /\ report_metrics e' tol hm thrs' d' = Some m' /\
      map snd (mt_accuracy m) = map snd (mt_accuracy m') /\
      forall k t t', nth_error thrs k = Some t -> nth_error thrs' k = Some t' ->
        (forall l v, In (l, t, v) (mt_counts m) <-> In (l, t', v) (mt_counts m')) /\
        (forall l v, In (l, t, v) (mt_precision m) <-> In (l, t', v) (mt_precision m')) /\
        (forall l v, In (l, t, v) (mt_recall m) <-> In (l, t', v) (mt_recall m')) /\
        (forall l v, In (l, t, v) (mt_f1 m) <-> In (l, t', v) (mt_f1 m')).
  Proof.
    intros Hf Hne H1 H2 Hs Hn Hc.
    assert (Hne' : thrs' <> []) by (destruct Hc; congruence).
    destruct (metrics_report cs Hdist w e He Hf tol hm thrs d sel H1 Hne) as (ls1 & P1 & _ & E1).
    destruct (metrics_report cs' Hdist' w' e' He' (few_crescore f cs Hf) tol hm thrs' d' sel' H2 Hne') as (ls2 & P2 & _ & E2).
    cbn zeta in E1, E2. rewrite E1, E2. do 2 eexists. split; [reflexivity|]. split; [reflexivity|].
    cbn [mt_accuracy mt_counts mt_precision mt_recall mt_f1].
    pose proof (cselect_crescore f cs w w' sel sel' Hw Hs) as Hu. split.
    - rewrite !map_map. cbn [snd]. clear Hne Hne' E1 E2. induction Hc as [|t t' a b H _ IH]; [reflexivity|]. cbn [map]. rewrite IH. f_equal.
      symmetry. apply (data_accuracy_crescore f cs Ho _ _ Hu hm _ _ (pass_counts_crescore f cs tol t t' Hn H) w w' Hw).
    - intros k t t' Ht Ht'. pose proof (Forall2_nth _ _ _ Hc k t t' Ht Ht') as H.
      assert (D : forall l, data_counts (cselect w' sel') hm (pass_counts tol t') cs' l = data_counts (cselect w sel) hm (pass_counts tol t) cs l).
      { intros l. apply (data_counts_crescore f cs Ho _ _ Hu hm _ _ (pass_counts_crescore f cs tol t t' Hn H)). }
      apply nth_error_In in Ht, Ht'. pose proof (rs_labels_perm ls1 ls2 P1 P2) as PL.
      assert (IL : forall l, In l ls1 <-> In l ls2) by (intros l; split; apply Permutation_in; [|symmetry]; exact PL).
      repeat split; intros Hin; apply table_of_In in Hin; destruct Hin as (A & B & ->); apply table_of_In; (split; [apply IL; exact A|split; [assumption|rewrite D; reflexivity]]).
  Qed.

  Theorem rescored_confusion tol9 hm thrs thrs' d d' sel sel' : thrs <> [] ->
    expresses cs d sel -> expresses cs' d' sel' -> same_view f cs sel sel' ->
    keeps_positive tol9 f (scores_in cs) -> Forall2 (same_cut f (scores_in cs)) thrs thrs' ->
    exists o o', report_confusion e tol9 hm thrs d = Some o /\ report_confusion e' tol9 hm thrs' d' = Some o' /\
      map fst o = thrs /\ map fst o' = thrs' /\
      forall k t1 C1 U1 t2 C2 U2, nth_error o k = Some (t1, (C1, U1)) -> nth_error o' k = Some (t2, (C2, U2)) ->
        (forall g p, cell C1 g p = cell C2 g p) /\ (forall g, sget U1 g = sget U2 g).
  Proof.
    intros Hne H1 H2 Hs Hn Hc.
    assert (Hne' : thrs' <> []) by (destruct Hc; congruence).
    destruct (confusion_report cs Hdist w e He tol9 hm thrs d sel H1 Hne) as (ls1 & P1 & _ & o1 & E1 & F1 & N1).
    destruct (confusion_report cs' Hdist' w' e' He' tol9 hm thrs' d' sel' H2 Hne') as (ls2 & P2 & _ & o2 & E2 & F2 & N2).
    exists o1, o2. split; [exact E1|]. split; [exact E2|]. split; [exact F1|]. split; [exact F2|].
    intros k t1 C1 U1 t2 C2 U2 K1 K2.
    assert (T1 : nth_error thrs k = Some t1) by (rewrite <- F1, nth_error_map, K1; reflexivity).
    assert (T2 : nth_error thrs' k = Some t2) by (rewrite <- F2, nth_error_map, K2; reflexivity).
    pose proof (N1 k t1 T1) as Q1. pose proof (N2 k t2 T2) as Q2. cbn zeta in Q1, Q2.
    rewrite Q1 in K1. rewrite Q2 in K2. injection K1 as <- <-. injection K2 as <- <-.
    pose proof (rs_labels_perm ls1 ls2 P1 P2) as PL. pose proof (cselect_crescore f cs w w' sel sel' Hw Hs) as Hu.
    pose proof (pass_cm_crescore f cs tol9 _ _ Hn (Forall2_firstn _ (S k) _ _ Hc)) as Hp. split.
    - intros g p. rewrite !cell_map, (smem_perm g _ _ PL), (smem_perm p _ _ PL). unfold cs'.
      rewrite (data_cell_crescore f cs Ho _ _ Hu hm _ _ Hp). reflexivity.
    - intros g. rewrite !sget_map, (smem_perm g _ _ PL). unfold cs'.
      rewrite (data_missed_crescore f cs Ho _ _ Hu hm _ _ Hp). reflexivity.
  Qed.

  Lemma outcomes_crescore l : outcomes l (reduced w' cs') = map (ro f) (outcomes l (reduced w cs)).
  Proof.
    rewrite !outcomes_reduced. unfold cs'. rewrite map_map, concat_map, map_map. f_equal. apply map_ext_in. intros c Hc.
    rewrite (Hw c l Hc). destruct (w c l); [|reflexivity]. rewrite candidates_crescore. cbn [crescore c_groundtruth].
    induction (candidates c) as [|p t IH]; [reflexivity|]. cbn [map filter]. change (fst (rs f p)) with (fst p).
    destruct (String.eqb (fst p) l); cbn [map]; rewrite IH; reflexivity.
  Qed.
  Lemma outcomes_scores l x : In x (outcomes l (reduced w cs)) -> In (fst x) (scores_in cs).
  Proof.
    rewrite outcomes_reduced, in_concat. intros (y & Hy & Hx). apply in_map_iff in Hy. destruct Hy as (c & <- & Hc).
    destruct (w c l); [|destruct Hx]. apply in_map_iff in Hx. destruct Hx as (p & <- & Hp). cbn [fst].
    apply filter_In in Hp. eapply score_in; [exact Hc|]. apply candidate_score, Hp.
  Qed.
  Lemma sorted_ro l : (forall x y, In x (map fst l) -> In y (map fst l) -> (x < y -> f x < f y)%Z) ->
    StronglySorted out_le l -> StronglySorted out_le (map (ro f) l).
  Proof.
    induction l as [|x t IH]; intros H S; [constructor|]. inversion S as [|? ? S' F]; subst. cbn [map]. constructor.
    - apply IH; [|exact S']. intros a b Ha Hb. apply H; right; assumption.
    - rewrite Forall_forall in F |- *. intros y Hy. apply in_map_iff in Hy. destruct Hy as (z & <- & Hz). specialize (F z Hz).
      unfold out_le, ro in *. cbn [fst snd]. destruct F as [F|[F1 F2]]; [left|right].
      + apply H; [right; apply in_map; exact Hz|left; reflexivity|exact F].
      + split; [rewrite F1; reflexivity|exact F2].
  Qed.
  Lemma vgts_crescore l : vgts cs' w' l = vgts cs w l.
  Proof.
    unfold vgts, cs'. apply countb_map_on. intros c Hc. rewrite (visible_crescore f cs w w' Hw c Hc). reflexivity.
  Qed.

  Hypothesis Hz : keeps_zero f (scores_in cs).
  Theorem rescored_rocauc l : In l (labels_of cs) -> safe_curve w cs e l -> safe_curve w' cs' e' l ->
    exists v v', sget (fst (report_rocauc e)) l = Some (Some v) /\ sget (fst (report_rocauc e')) l = Some (Some v') /\ (v == v')%Q.
  Proof.
    intros Hl S1 S2.
    destruct (In_nth_error _ _ Hl) as (i1 & N1). pose proof N1 as N2. rewrite <- (labels_crescore f cs) in N2.
    apply (ev_labels cs Hdist w e He) in N1. apply (ev_labels cs' Hdist' w' e' He') in N2.
    destruct (ev_rocauc cs Hdist w e He l i1 N1 (S1 _ N1)) as (rows & v & E & V & S & P & _).
    destruct (ev_rocauc cs' Hdist' w' e' He' l i1 N2 (S2 _ N2)) as (rows' & v' & E' & V' & S' & P' & _).
    exists v, v'. split; [exact (rocauc_entry w cs e Hdist He l i1 v N1 E)|].
    split; [exact (rocauc_entry w' cs' e' Hdist' He' l i1 v' N2 E')|].
    assert (Hin : forall x, In x (map i_score rows) -> In x (scores_in cs)).
    { intros x Hx. apply in_map_iff in Hx. destruct Hx as (r & <- & Hr).
      apply (outcomes_scores l (outc r)). eapply Permutation_in; [exact P|]. apply in_map. exact Hr. }
    assert (Hr : forall x y, In x (map i_score rows) -> In y (map i_score rows) -> (x < y -> f x < f y)%Z) by (intros x y Hx Hy; apply Ho; apply Hin; assumption).
    assert (Em : map outc rows' = map (ro f) (map outc rows)).
    { apply sorted_perm_eq; [exact S'| |].
      - apply sorted_ro; [|exact S]. rewrite map_map. cbn [outc fst]. exact Hr.
      - rewrite P', outcomes_crescore. apply Permutation_map. symmetry. exact P. }
    rewrite V, V', vgts_crescore, outcomes_crescore, map_length.
    rewrite (label_curve_crescore f rows rows' Em Hr); [reflexivity|]. intros x Hx. apply Hz, Hin, Hx.
  Qed.

  Theorem rescored_mean_rocauc : (forall l, In l (labels_of cs) -> safe_curve w cs e l /\ safe_curve w' cs' e' l) ->
    exists m m', snd (report_rocauc e) = Some m /\ snd (report_rocauc e') = Some m' /\ (m == m')%Q.
  Proof.
    intros Hsafe. unfold report_rocauc. cbn [snd].
    assert (N : forall cs w e (Hd : Forall distinct_candidates cs) (He : cls_evaluator cs w e), length (cls_rocauc e) = length (labels_of cs) /\ cls_rocauc e <> []).
    { clear. intros cs w e Hd He. assert (Hl : length (cls_rocauc e) = length (labels_of cs)).
      { unfold cls_rocauc, compute_rocauc. rewrite map_length, seq_length. apply (ev_n cs Hd w e He). }
      split; [exact Hl|]. intros E. rewrite E in Hl. pose proof (labels_nonempty cs Hd w e He) as Hne.
      pose proof (ev_n cs Hd w e He) as Hn. rewrite <- Hl in Hn. destruct (ce_labels e); [congruence|discriminate]. }
    destruct (N cs w e Hdist He) as [L1 Z1]. destruct (N cs' w' e' Hdist' He') as [L2 Z2].
    assert (M : forall l : list Q, l <> [] -> mean l = Some (qsum l / inject_Z (Z.of_nat (length l)))%Q) by (intros [|a t] H; [congruence|reflexivity]).
    rewrite (M _ Z1), (M _ Z2). do 2 eexists. split; [reflexivity|]. split; [reflexivity|].
    unfold cs' in L2. rewrite labels_crescore in L2. rewrite L1, L2.
    set (g l := match sget (fst (report_rocauc e)) l with Some (Some v) => v | _ => 0%Q end).
    assert (S1 : (qsum (cls_rocauc e) == qsum (map g (labels_of cs)))%Q).
    { apply qsum_nth; [exact L1|]. intros i x Hx. assert (Hi : i < length (labels_of cs)) by (apply nth_error_Some; congruence).
      destruct (nth_error (cls_rocauc e) i) as [v|] eqn:Ev; [|apply nth_error_None in Ev; lia].
      exists v. split; [reflexivity|]. apply (ev_labels cs Hdist w e He) in Hx. unfold g.
      rewrite (rocauc_entry w cs e Hdist He x i v Hx Ev). reflexivity. }
    assert (S2 : (qsum (cls_rocauc e') == qsum (map g (labels_of cs)))%Q).
    { apply qsum_nth; [exact L2|]. intros i x Hx. assert (Hi : i < length (labels_of cs)) by (apply nth_error_Some; congruence).
      destruct (nth_error (cls_rocauc e') i) as [v|] eqn:Ev; [|apply nth_error_None in Ev; lia].
      exists v. split; [reflexivity|].
      pose proof (nth_error_In _ _ Hx) as Hx1.
      destruct (Hsafe x Hx1) as [Q1 Q2]. destruct (rescored_rocauc x Hx1 Q1 Q2) as (v1 & v2 & V1 & V2 & E).
      rewrite <- (labels_crescore f cs) in Hx. apply (ev_labels cs' Hdist' w' e' He') in Hx.
      rewrite (rocauc_entry w' cs' e' Hdist' He' x i v Hx Ev) in V2. injection V2 as ->.
      unfold g. rewrite V1. symmetry. exact E. }
    rewrite S1, S2. reflexivity.
  Qed.
End Rescored.
