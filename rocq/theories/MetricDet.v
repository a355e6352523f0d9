(* The documents of the object detection and segmentation reports. *)
From Verif Require Import Prelude PageSpec Counting CacheModel ClsModel ClsSpec RocModel FlowModel ClsReportModel ClsLabelProofs ClsMore ClsCellModel ClsCellSpec
  DetModel DetExModel DetSpec DetFlowModel DetReportModel DetScoreModel DetStoreProofs DetEnd DetFilterSpec DetFilterMain DetTurnSpec DetCellModel DetCellSpec DetCellProofs MetricModel MetricSpec MetricProofs.
From Verif Require SegModel SegSpec SegMetricProofs.
From Coq Require Import String QArith Lia.
Local Notation length := List.length (only parsing).
Local Open Scope nat_scope.
Local Open Scope list_scope.

(* ---------------------------------------------------------------- labels and their numbers *)
Lemma det_numbered eps unit ds L w e : det_input unit ds -> shows eps unit ds L w e ->
  exists ls, numbered_labels e ds ls /\ de_labels e = map (fun l => (Z.of_nat (fst l), Some (snd l))) ls /\ Forall (fun l => fst l < length (de_labels e)) ls.
Proof.
  intros Hin Hsh. destruct (shows_origin eps unit ds L w e Hsh) as (e0 & He & E & HL).
  destruct (end_facts eps unit ds Hin e0 He) as (L0 & _ & _ & _ & B & _ & N & C & D).
  assert (A : exists ls, de_labels e = map (fun l => (Z.of_nat (fst l), Some (snd l))) ls /\ Forall (fun l => index_of (snd l) L0 = Some (fst l)) ls).
  { rewrite E. assert (C' : forall k v, In (k, v) (de_labels e0) -> exists s vi, v = Some s /\ k = Z.of_nat vi /\ index_of s L0 = Some vi) by (intros k v; apply C).
    clear - C'. induction (de_labels e0) as [|[k v] l IH]; [exists []; split; [reflexivity|constructor]|].
    destruct IH as (ls & E & F); [intros; apply C'; right; assumption|]. destruct (C' k v (or_introl eq_refl)) as (s & vi & -> & -> & H).
    exists ((vi, s) :: ls). cbn. rewrite <- E. split; [reflexivity|]. constructor; assumption. }
  destruct A as (ls & A & F). exists ls.
  assert (Hno : forall l, In l ls -> label_no e (snd l) (fst l)).
  { intros l Hl. unfold label_no. rewrite E. apply B. exact (proj1 (Forall_forall _ _) F l Hl). }
  destruct (e_named eps unit ds L w e Hin Hsh) as (N1 & N2 & N3).
  assert (Hn : names_of e = map snd ls). { rewrite A, map_map in N1. cbn [snd] in N1. clear - N1. revert N1. generalize (names_of e). induction ls as [|l ls IH]; intros [|n ns] H; try discriminate; [reflexivity|]. cbn in *. injection H as <- H. f_equal. apply IH. exact H. }
  rewrite Hn in N2, N3. split; [split; [exact N2|split; [exact N3|exact Hno]]|]. split; [exact A|].
  apply Forall_forall. intros l Hl. rewrite E, N. assert (X := proj1 (Forall_forall _ _) F l Hl). cbn in X. apply index_of_nth in X. apply nth_error_Some. congruence.
Qed.

Section Det.
  Context {I : Type}.
  Lemma copy_scores (i : I) l : copy blank (PyList i (map PyScore l)) = scores_doc l.
  Proof. rewrite copy_list, map_map. reflexivity. Qed.
  Lemma copy_floats (i : I) l : copy blank (PyList i (map PyFloat l)) = arr (map PyFloat l).
  Proof. rewrite copy_list, map_map. reflexivity. Qed.
  Lemma nan_ok o : value_type (or_nan (I := I) o) = true /\ copy blank (or_nan (I := I) o) = mean_doc o.
  Proof. destruct o; split; reflexivity. Qed.
  Ltac dp := intros ?; split; [reflexivity|]; try reflexivity; unfold params; rewrite copy_dict; cbn [map fst snd]; rewrite ?copy_scores; reflexivity.

  Variables (eps : Z) (e : deval) (datums : drow -> bool) (ls : list (nat * string)).
  Hypothesis Hl : de_labels e = map (fun l => (Z.of_nat (fst l), Some (snd l))) ls.
  Hypothesis Hr : Forall (fun l => fst l < length (de_labels e)) ls.
  Lemma in_range l : In l ls -> forall X (f : Z -> X), indexed e (Z.of_nat (fst l)) f = Some (f (Z.of_nat (fst l))).
  Proof.
    intros H X f. unfold indexed. assert (A := proj1 (Forall_forall _ _) Hr l H). cbn in A.
    destruct (Z.leb_spec 0 (Z.of_nat (fst l))); [|lia]. destruct (Z.ltb_spec (Z.of_nat (fst l)) (Z.of_nat (length (de_labels e)))); [reflexivity|lia].
  Qed.
  Lemma per_label {X} (xs : list X) (f : X -> pkey -> Z -> maker I) (D : X -> nat * string -> doc) :
    (forall x l, realises (f x (Some (snd l)) (Z.of_nat (fst l))) (D x l)) ->
    Forall2 realises (flat_map (fun x => map (fun kl new => match indexed e (fst kl) (fun k => k) with Some k => f x (snd kl) k new | None => None end) (de_labels e)) xs)
      (each xs ls D).
  Proof.
    intros H. unfold each. rewrite Hl. apply Forall2_flat. intros x _. rewrite map_map. cbn [fst snd]. apply Forall2_map, Forall2_same.
    intros l Hi new. rewrite (in_range l Hi Z (fun k => k)). apply H.
  Qed.
  Lemma per_triple {X} ious scores (f : Z -> Z -> Z -> X) (mk : X -> pkey -> Z -> Z -> maker I) (D : X -> string -> Z -> Z -> doc) :
    (forall v l t s, realises (mk v (Some l) t s) (D v l t s)) ->
    Forall2 realises (det_labelled_makers e ious scores f mk)
      (flat_map (fun l => flat_map (fun s => map (fun t => D (f t s (Z.of_nat (fst l))) (snd l) t s) ious) scores) ls).
  Proof.
    intros H. unfold det_labelled_makers. rewrite Hl.
    assert (E : flat_map (fun kl => flat_map (fun s => map (fun t new => match indexed e (fst kl) (f t s) with Some v => mk v (snd kl) t s new | None => None end) ious) scores)
        (map (fun l => (Z.of_nat (fst l), Some (snd l))) ls)
      = flat_map (fun l => flat_map (fun s => map (fun t new => match indexed e (Z.of_nat (fst l)) (f t s) with Some v => mk v (Some (snd l)) t s new | None => None end) ious) scores) ls).
    { clear. induction ls as [|l k IH]; [reflexivity|]. cbn. rewrite IH. reflexivity. }
    rewrite E. apply Forall2_flat. intros l Hi. apply Forall2_flat. intros s _. apply Forall2_map, Forall2_same. intros t _ new. rewrite (in_range l Hi X (f t s)). apply H.
  Qed.

  Theorem det_docs (new : supply I) iobj sobj ious scores : ious <> [] -> scores <> [] ->
    report_docs (det_precision_recall new eps e datums iobj sobj ious scores) = Some (det_documents ls ious scores eps e datums).
  Proof.
    intros Hi Hs. unfold det_precision_recall. destruct ious as [|t0 ts] eqn:Ei; [congruence|]. destruct scores as [|s0 ss] eqn:Es; [congruence|].
    rewrite <- Ei, <- Es in *. clear Ei Es t0 ts s0 ss. apply realise_docs. unfold det_documents. cbv zeta. apply Forall2_app.
    - repeat apply Forall2_cons; try apply Forall2_nil; (split; [reflexivity|]); cbn [fst snd].
      + apply (per_label ious (fun t l k new => det_ap new (PyFloat (rep_ap eps e datums t k)) t l)). intros t l. apply realises_make; dp.
      + apply Forall2_map, Forall2_same. intros t _. apply realises_make; [intros _; apply nan_ok|dp].
      + unfold each in *. rewrite <- (app_nil_r (map _ ls)).
        apply (per_label [tt] (fun _ l k new => det_ap_avg new (or_nan (rep_ap_over_ious eps e datums ious k)) (PyList iobj (map PyScore ious)) l)
          (fun _ l => document "APAveragedOverIOUs" (mean_doc (rep_ap_over_ious eps e datums ious (Z.of_nat (fst l)))) [("iou_thresholds"%string, scores_doc ious); ("label"%string, PyStr (snd l))])).
        intros _ l. apply realises_make; [intros _; apply nan_ok|dp].
      + constructor; [|constructor]. apply realises_make; [intros _; apply nan_ok|dp].
      + apply (per_label scores (fun s l k new => det_ar new (or_nan (rep_ar eps e datums ious s k)) (PyList iobj (map PyScore ious)) s l)).
        intros s l. apply realises_make; [intros _; apply nan_ok|dp].
      + apply Forall2_map, Forall2_same. intros s _. apply realises_make; [intros _; apply nan_ok|dp].
      + rewrite <- (app_nil_r (map _ ls)).
        apply (per_label [tt] (fun _ l k new => det_ar_avg new (or_nan (qmean_all (map (fun s => rep_ar eps e datums ious s k) scores))) (PyList sobj (map PyScore scores)) (PyList iobj (map PyScore ious)) l)
          (fun _ l => document "ARAveragedOverScores" (mean_doc (qmean_all (map (fun s => rep_ar eps e datums ious s (Z.of_nat (fst l))) scores)))
             [("iou_thresholds"%string, scores_doc ious); ("score_thresholds"%string, scores_doc scores); ("label"%string, PyStr (snd l))])).
        intros _ l. apply realises_make; [intros _; apply nan_ok|dp].
      + constructor; [|constructor]. apply realises_make; [intros _; apply nan_ok|dp].
      + apply (per_label ious (fun t l k new => det_curve new (rep_pr_curve eps e datums t k) (rep_pr_scores eps e datums t k) t l)).
        intros t l. apply realises_make; [|dp]. intros n. split; [reflexivity|]. unfold vdict. rewrite copy_dict. cbn [map fst snd]. rewrite copy_scores, copy_floats. reflexivity.
    - assert (Z0 : ls = [] \/ ls <> []) by (destruct ls; [left; reflexivity|right; discriminate]). destruct Z0 as [Z0|Z0].
      + rewrite Z0 in *. rewrite appended_none; [constructor|]. unfold det_labelled_makers. rewrite Hl. repeat constructor.
      + assert (Z1 : forall D : nat * string -> Z -> Z -> doc, flat_map (fun l => flat_map (fun s => map (fun t => D l t s) ious) scores) ls <> []).
        { intros D. destruct ls; [congruence|]. destruct scores; [congruence|]. destruct ious; [congruence|]. discriminate. }
        replace (if_any ls) with (fun r : list (string * list doc) => r) by (unfold if_any; destruct ls; [congruence|reflexivity]).
        apply appended_some; [|repeat apply Forall_cons; try apply Forall_nil; cbn [snd]; apply Z1].
        repeat apply Forall2_cons; try apply Forall2_nil; (split; [reflexivity|]); cbn [fst snd].
        * apply (per_triple ious scores (fun t s k => (rep_tp eps e datums t s k, rep_fp eps e datums t s k, rep_fn eps e datums t s k))
              (fun c l t s new => det_count new (Z.of_nat (fst (fst c))) (Z.of_nat (snd (fst c))) (snd c) l t s)
              (fun c l t s => document "Counts" (obj [("tp", int (fst (fst c))); ("fp", int (snd (fst c))); ("fn", PyInt (snd c))]%string)
                 [("iou_threshold", PyScore t); ("score_threshold", PyScore s); ("label", PyStr l)]%string)). intros v l t s. apply realises_make; dp.
        * apply (per_triple ious scores (rep_precision eps e datums) (fun v l t s new => det_labelled new "Precision" (PyFloat v) l t s) (fun v l t s => document "Precision" (PyFloat v) (det_params l t s))).
          intros v l t s. apply realises_make; dp.
        * apply (per_triple ious scores (rep_recall eps e datums) (fun v l t s new => det_labelled new "Recall" (PyFloat v) l t s) (fun v l t s => document "Recall" (PyFloat v) (det_params l t s))).
          intros v l t s. apply realises_make; dp.
        * apply (per_triple ious scores (rep_f1 eps e datums) (fun v l t s new => det_labelled new "F1" (PyFloat v) l t s) (fun v l t s => document "F1" (PyFloat v) (det_params l t s))).
          intros v l t s. apply realises_make; dp.
  Qed.
End Det.

Section DetMatrices.
  Context {I : Type}.
  Lemma copy_numbers (new : supply I) (f : string -> nat) ls :
    copy blank (count_dict new (map (fun p => (Some p, f p)) ls)) = row_doc ls (fun p => int (f p)).
  Proof. unfold count_dict, row_doc, obj, int. rewrite copy_dict. f_equal. rewrite !map_map. apply map_ext. intros p. reflexivity. Qed.
  Lemma copy_numbers2 (new : supply I) (f : string -> string -> nat) ls :
    copy blank (count_table new (map (fun g => (Some g, map (fun p => (Some p, f g p)) ls)) ls)) = matrix_doc ls (fun g p => int (f g p)).
  Proof.
    unfold count_table, matrix_doc, obj at 1. rewrite copy_dict. f_equal. rewrite !map_map. apply map_ext. intros g. cbn [fst snd]. f_equal. apply copy_numbers.
  Qed.
  Lemma each_map {X Y Z W} (xs : list X) (ys : list Y) (f : X -> Y -> Z) (g : Z -> W) : map g (each xs ys f) = each xs ys (fun x y => g (f x y)).
  Proof. unfold each. induction xs as [|x xs IH]; [reflexivity|]. cbn. rewrite map_app, map_map, IH. reflexivity. Qed.
  Lemma each_Forall2 {X Y Z W} (R : Z -> W -> Prop) (xs : list X) (ys : list Y) (f : X -> Y -> Z) (g : X -> Y -> W) :
    (forall x y, R (f x y) (g x y)) -> Forall2 R (each xs ys f) (each xs ys g).
  Proof. intros H. unfold each. apply Forall2_flat. intros x _. apply Forall2_map, Forall2_same. intros y _. apply H. Qed.

  Lemma obj3 a b c (x x' y y' z z' : doc) : x = x' -> y = y' -> z = z' -> PyDict tt [(Some a, x); (Some b, y); (Some c, z)] = obj [(a, x'); (b, y'); (c, z')].
  Proof. intros -> -> ->. reflexivity. Qed.
  Lemma row_ext ls f g : (forall p, f p = g p) -> row_doc ls f = row_doc ls g.
  Proof. intros H. unfold row_doc. f_equal. apply map_ext. intros p. rewrite H. reflexivity. Qed.
  Lemma matrix_ext ls f g : (forall p q, f p q = g p q) -> matrix_doc ls f = matrix_doc ls g.
  Proof. intros H. unfold matrix_doc. f_equal. apply map_ext. intros p. f_equal. f_equal. apply map_ext. intros q. rewrite H. reflexivity. Qed.

  Theorem det_matrix_docs (new : supply I) eps ious scores datums e names ds :
    det_confusion_metrics eps ious scores datums e = Some (flat_map (fun t => map (fun s => (t, s, counts_of names eps t s ds)) scores) ious) ->
    list_docs (det_confusion_report new eps ious scores datums e) = Some (each ious scores (det_matrix_doc names eps ds)).
  Proof.
    intros E. unfold det_confusion_report. rewrite E. apply listing_docs.
    change (flat_map (fun t => map (fun s => (t, s, counts_of names eps t s ds)) scores) ious) with (each ious scores (fun t s => (t, s, counts_of names eps t s ds))).
    rewrite each_map. apply each_Forall2. intros t s. cbn [fst snd]. apply realises_make; [|dparams]. intros n. split; [reflexivity|]. unfold vdict. rewrite copy_dict. cbn [map fst snd].
    unfold counts_of. cbn [dc_cells dc_pds dc_gts].
    rewrite (copy_numbers2 _ (fun g p => list_sum_nat (map (fun d => length (cell_pairs eps t s d g p)) ds))),
      (copy_numbers _ (fun p => list_sum_nat (map (fun d => length (lone_pds eps t s d p)) ds))), (copy_numbers _ (fun g => list_sum_nat (map (fun d => length (lone_gts eps t s d g)) ds))).
    apply obj3; [apply matrix_ext|apply row_ext|apply row_ext]; intros; rewrite flat_map_length; reflexivity.
  Qed.

  (* examples *)
  Lemma uid_values {X} (f : X -> string) (l : list X) : SegModel.all_some (map (@uid_value I) (map (fun a => Some (Some (f a))) l)) = Some (map (fun a => PyStr (f a)) l).
  Proof. rewrite map_map. apply all_some_map_in. intros; reflexivity. Qed.
  Lemma pair_values {X} (f g : X -> string) (l : list X) :
    SegModel.all_some (map (@uid_pair I) (map (fun a => (Some (Some (f a)), Some (Some (g a)))) l)) = Some (map (fun a => PyTuple [PyStr (f a); PyStr (g a)]) l).
  Proof. rewrite map_map. apply all_some_map_in. intros; reflexivity. Qed.
  Theorem det_examples_docs (new : supply I) eps ious scores datums limit offset e page :
    det_examples eps ious scores datums limit offset e = Some (flat_map (image_examples eps ious scores) page) ->
    list_docs (det_examples_report new eps ious scores datums limit offset e) = Some (flat_map (fun d => each ious scores (det_example_doc eps d)) page).
  Proof.
    intros E. unfold det_examples_report. rewrite E. clear E. apply listing_docs.
    induction page as [|d page IH]; [constructor|]. cbn [flat_map]. rewrite map_app. apply Forall2_app; [|exact IH]. clear IH. unfold image_examples.
    fold (each ious scores (fun t s => (Some (t_uid d), t, s,
      MkDEx (map (fun y => (Some (Some (a_uid (fst y))), Some (Some (a_uid (snd y))))) (right_pairs eps t s d))
        (map (fun a => Some (Some (a_uid a))) (wrong_pds eps t s d)) (map (fun a => Some (Some (a_uid a))) (missed_gts eps t s d))))). rewrite each_map. apply each_Forall2. intros t s n. cbn [fst snd dx_tp dx_fp dx_fn]. unfold pair_list, uid_list. rewrite !uid_values, (pair_values (fun y => a_uid (fst y)) (fun y => a_uid (snd y))).
    cbn [option_map].
    refine (realises_make "Examples" (fun new => vdict new ["datum_id" ~> PyStr (t_uid d); "true_positives" ~> PyList ((new // "value" // "true_positives") []) (map (fun a => PyTuple [PyStr (a_uid (fst a)); PyStr (a_uid (snd a))]) (right_pairs eps t s d));
        "false_positives" ~> PyList ((new // "value" // "false_positives") []) (map (fun a => PyStr (a_uid a)) (wrong_pds eps t s d));
        "false_negatives" ~> PyList ((new // "value" // "false_negatives") []) (map (fun a => PyStr (a_uid a)) (missed_gts eps t s d))])
      (fun new => params new ["score_threshold" ~> PyScore s; "iou_threshold" ~> PyScore t]) _ (at_pair s t) _ _ n); [|dparams].
    intros k. split; [reflexivity|]. unfold vdict. rewrite copy_dict. cbn [map fst snd]. rewrite !copy_list, !map_map. unfold strings. rewrite !map_map. reflexivity.
  Qed.

  (* matrices with examples *)
  Lemma flat_map_pairs {D X Y} (F : D -> list X) (h : D -> X -> Y) (ds : list D) : flat_map (fun d => map (h d) (F d)) ds = map (fun dx => h (fst dx) (snd dx)) (flat_map (fun d => map (pair d) (F d)) ds).
  Proof. induction ds as [|d ds IH]; [reflexivity|]. cbn. rewrite map_app, map_map, IH. reflexivity. Qed.
  Theorem det_matrix_examples_docs (new : supply I) eps ious scores datums e names ds :
    det_confusion_examples eps ious scores datums e = Some (flat_map (fun t => map (fun s => (t, s, Some (dcmx_of names eps t s ds))) scores) ious) ->
    list_docs (det_confusion_examples_report new eps ious scores datums e) = Some (each ious scores (det_matrix_examples_doc names eps ds)).
  Proof.
    intros E. unfold det_confusion_examples_report. rewrite E. apply listing_docs.
    change (flat_map (fun t => map (fun s => (t, s, Some (dcmx_of names eps t s ds))) scores) ious) with (each ious scores (fun t s => (t, s, Some (dcmx_of names eps t s ds)))).
    rewrite each_map. apply each_Forall2. intros t s n. cbn [fst snd]. unfold dcmx_of. cbn [dx_cells dx_pds dx_gts].
    erewrite (map_ext (fun g => (Some g, map _ names))).
    2: { intros g. erewrite (map_ext (fun p => (Some p, counted _))); [reflexivity|]. intros p.
      rewrite (flat_map_pairs (fun d => cell_pairs eps t s d g p) (fun d y => (t_uid d, Some (a_uid (fst y)), Some (a_uid (snd y)))) ds). reflexivity. }
    destruct (tables_copy (n // "value" // "confusion_matrix") det_match_example
      (fun _ _ dx => obj [("datum_id", PyStr (t_uid (fst dx))); ("ground_truth_id", PyStr (a_uid (fst (snd dx)))); ("prediction_id", PyStr (a_uid (snd (snd dx))))]%string)
      (fun _ _ dx => (t_uid (fst dx), Some (a_uid (fst (snd dx))), Some (a_uid (snd (snd dx))))) (fun g p => flat_map (fun d => map (pair d) (cell_pairs eps t s d g p)) ds) names names) as (cm & -> & C1).
    { intros k g p y _. eexists. split; reflexivity. }
    erewrite (map_ext (fun p => (Some p, counted (flat_map (fun d => map (fun a => (t_uid d, Some (a_uid a))) (lone_pds eps t s d p)) ds)))).
    2: { intros p. rewrite (flat_map_pairs (fun d => lone_pds eps t s d p) (fun d a => (t_uid d, Some (a_uid a))) ds). reflexivity. }
    destruct (cells_copy (n // "value" // "unmatched_predictions") det_pd_example (fun _ dx => obj [("datum_id", PyStr (t_uid (fst dx))); ("prediction_id", PyStr (a_uid (snd dx)))]%string)
      (fun _ dx => (t_uid (fst dx), Some (a_uid (snd dx)))) (fun p => flat_map (fun d => map (pair d) (lone_pds eps t s d p)) ds) names) as (pds & -> & C2).
    { intros k p y _. eexists. split; reflexivity. }
    erewrite (map_ext (fun p => (Some p, counted (flat_map (fun d => map (fun a => (t_uid d, Some (a_uid a))) (lone_gts eps t s d p)) ds)))).
    2: { intros p. rewrite (flat_map_pairs (fun d => lone_gts eps t s d p) (fun d a => (t_uid d, Some (a_uid a))) ds). reflexivity. }
    destruct (cells_copy (n // "value" // "unmatched_ground_truths") det_gt_example (fun _ dx => obj [("datum_id", PyStr (t_uid (fst dx))); ("ground_truth_id", PyStr (a_uid (snd dx)))]%string)
      (fun _ dx => (t_uid (fst dx), Some (a_uid (snd dx)))) (fun g => flat_map (fun d => map (pair d) (lone_gts eps t s d g)) ds) names) as (gts & -> & C3).
    { intros k p y _. eexists. split; reflexivity. }
    refine (realises_make "ConfusionMatrixWithExamples" (fun new => vdict new ["confusion_matrix" ~> cm; "unmatched_predictions" ~> pds; "unmatched_ground_truths" ~> gts])
      (fun new => params new ["score_threshold" ~> PyScore s; "iou_threshold" ~> PyScore t]) _ (at_pair s t) _ _ n); [|dparams].
    intros k. split; [reflexivity|]. unfold vdict. rewrite copy_dict. cbn [map fst snd]. rewrite C1, C2, C3.
    assert (Q : forall X (F : detection -> list X) (ex : detection -> X -> list (string * doc)),
      cell_doc (fun l => obj l) (flat_map (fun d => map (fun x => ("datum_id"%string, PyStr (t_uid d)) :: ex d x) (F d)) ds)
      = cell_doc (fun dx => obj (("datum_id"%string, PyStr (t_uid (fst dx))) :: ex (fst dx) (snd dx))) (flat_map (fun d => map (pair d) (F d)) ds)).
    { intros X F ex. unfold cell_doc. rewrite (flat_map_pairs F (fun d x => ("datum_id"%string, PyStr (t_uid d)) :: ex d x) ds), map_map, map_length. reflexivity. }
    apply obj3; [apply matrix_ext|apply row_ext|apply row_ext]; intros; symmetry; apply Q.
  Qed.
End DetMatrices.

(* ---------------------------------------------------------------- segmentation *)
Lemma agree_obj {X} (k : X -> string) (f g : X -> doc) l : (forall x, In x l -> agree (f x) (g x)) ->
  agree (obj (map (fun x => (k x, f x)) l)) (obj (map (fun x => (k x, g x)) l)).
Proof.
  intros H. unfold obj. apply agree_dict. rewrite !map_map. apply Forall2_map, Forall2_same. intros x Hx. split; [reflexivity|]. apply H. exact Hx.
Qed.
Lemma agree_document ty v v' ps : agree v v' -> agree (document ty v ps) (document ty v' ps).
Proof.
  intros H. unfold document, obj at 1 3. cbn [map fst snd]. apply agree_dict. repeat constructor; try assumption.
Qed.
Section Seg.
  Import SegModel SegSpec.
  Context {I : Type}.
  Definition labels_doc (ty : string) (L : list string) (xs : list (option string * Q)) : list doc :=
    map (fun lx => document ty (PyFloat (snd (snd lx))) [("label"%string, PyStr (fst lx))]) (combine L xs).
  Definition rates_doc (key : string) (L : list string) (xs : list (option string * Q)) : doc :=
    obj (map (fun lx => (fst lx, obj [(key, PyFloat (snd (snd lx)))])) (combine L xs)).
  Lemma combine_Forall2 {A B} (R : A -> B -> Prop) l m : Forall2 R l m -> Forall (fun x => R (fst x) (snd x)) (combine l m) /\ map snd (combine l m) = m /\ map fst (combine l m) = l.
  Proof. induction 1 as [|a b l m H _ (A1 & A2 & A3)]; [repeat constructor|]. cbn. split; [constructor; assumption|]. split; f_equal; assumption. Qed.
  Lemma labels_real ty L f xs : lists_of L f xs -> Forall2 (realises (I := I)) (seg_labelled_makers ty xs) (labels_doc ty L xs).
  Proof.
    unfold lists_of, labels_doc. intros H. induction H as [|l x L xs [E _] H IH]; [constructor|]. cbn [combine map seg_labelled_makers]. constructor; [|exact IH].
    destruct x as [k q]. cbn [fst snd] in *. subst k. apply realises_make; dparams.
  Qed.
  Lemma labels_agree ty L f xs : lists_of L f xs -> Forall2 agree (labels_doc ty L xs) (map (fun l => document ty (PyFloat (f l)) [("label"%string, PyStr l)]) L).
  Proof.
    unfold lists_of, labels_doc. intros H. induction H as [|l x L xs [_ E] H IH]; [constructor|]. cbn [combine map fst snd]. constructor; [|exact IH].
    apply agree_document, agree_float. exact E.
  Qed.
  Lemma rates_copy (new : supply I) key L f xs : lists_of L f xs -> copy blank (rate_dict new key xs) = rates_doc key L xs.
  Proof.
    unfold lists_of, rates_doc, rate_dict, obj at 1. intros H. rewrite copy_dict. f_equal. induction H as [|l x L xs [E _] H IH]; [reflexivity|].
    cbn [combine map fst snd]. f_equal; [|exact IH]. destruct x as [k q]. cbn [fst snd] in *. subst k. reflexivity.
  Qed.
  Lemma rates_agree key L f xs : lists_of L f xs -> agree (rates_doc key L xs) (row_doc L (fun l => obj [(key, PyFloat (f l))])).
  Proof.
    unfold lists_of, rates_doc, row_doc, obj at 1 3. intros H. apply agree_dict. induction H as [|l x L xs [_ E] H IH]; [constructor|].
    cbn [combine map fst snd]. constructor; [|exact IH]. split; [reflexivity|]. cbn [snd]. unfold obj. cbn [map fst snd]. apply agree_dict. constructor; [|constructor]. split; [reflexivity|]. apply agree_float. exact E.
  Qed.
  Definition table_doc (L ks : list string) (xs : list (option string * list (option string * Q))) : doc :=
    obj (map (fun lx => (fst lx, rates_doc "iou" ks (snd (snd lx)))) (combine L xs)).
  Lemma table_copy (new : supply I) (ks L : list string) f xs : Forall2 (fun a x => fst x = Some a /\ lists_of ks (f a) (snd x)) L xs ->
    copy blank (PyDict (new []) (map (fun x => (fst x, rate_dict (below new (Key (fst x))) "iou" (snd x))) xs)) = table_doc L ks xs.
  Proof.
    unfold table_doc, obj. intros H. rewrite copy_dict. f_equal. induction H as [|l x L xs [E H'] H IH]; [reflexivity|].
    cbn [combine map fst snd]. f_equal; [|exact IH]. destruct x as [k q]. cbn [fst snd] in *. subst k. f_equal. apply (rates_copy _ "iou" ks (f l)). exact H'.
  Qed.
  Lemma table_agree (ks L : list string) f xs : Forall2 (fun a x => fst x = Some a /\ lists_of ks (f a) (snd x)) L xs ->
    agree (table_doc L ks xs) (row_doc L (fun g => row_doc ks (fun p => obj [("iou"%string, PyFloat (f g p))]))).
  Proof.
    unfold table_doc, row_doc at 1, obj at 1 2. intros H. apply agree_dict. induction H as [|l x L xs [_ E] H IH]; [constructor|].
    cbn [combine map fst snd]. constructor; [|exact IH]. split; [reflexivity|]. cbn [snd]. apply rates_agree. exact E.
  Qed.

  Theorem seg_docs (new : supply I) ed e rep ss v L : seg_compute e ed = Some rep -> report_ok ss v L rep ->
    exists r, report_docs (seg_metrics new ed e) = Some r /\ agree_reports r (seg_documents ss v L).
  Proof.
    intros E (H1 & H2 & H3 & H4 & H5 & H6 & H7 & H8 & H9). unfold seg_metrics. rewrite E.
    set (r0 := [("Accuracy"%string, [document "Accuracy" (PyFloat (sr_accuracy rep)) []]);
      ("ConfusionMatrix"%string, [document "ConfusionMatrix" (obj [("confusion_matrix", table_doc L L (sr_confusion rep)); ("unmatched_predictions", rates_doc "ratio" L (sr_unmatched_pd rep));
          ("unmatched_ground_truths", rates_doc "ratio" L (sr_unmatched_gt rep))]%string) []]);
      ("mIOU"%string, [document "mIOU" (mean_doc (sr_miou rep)) []])]).
    set (r1 := [("Precision"%string, labels_doc "Precision" L (sr_precision rep)); ("Recall"%string, labels_doc "Recall" L (sr_recall rep));
      ("F1"%string, labels_doc "F1" L (sr_f1 rep)); ("IOU"%string, labels_doc "IOU" L (sr_iou rep))]).
    exists (r0 ++ if_any L r1). split.
    - apply realise_docs. apply Forall2_app.
      + unfold r0. repeat apply Forall2_cons; try apply Forall2_nil; (split; [reflexivity|]); cbn [fst snd]; (constructor; [|constructor]).
        * apply realises_make; dparams.
        * apply realises_make; [|dparams]. intros n. split; [reflexivity|]. unfold vdict. rewrite copy_dict. cbn [map fst snd].
          rewrite (table_copy _ L L (spec_iou ss v) _ H2), (rates_copy _ "ratio" L _ _ H3), (rates_copy _ "ratio" L _ _ H4). reflexivity.
        * unfold or_nan, mean_doc. destruct (sr_miou rep); apply realises_make; dparams.
      + assert (F : Forall2 (entry (I := I)) [("Precision"%string, seg_labelled_makers "Precision" (sr_precision rep)); ("Recall"%string, seg_labelled_makers "Recall" (sr_recall rep));
           ("F1"%string, seg_labelled_makers "F1" (sr_f1 rep)); ("IOU"%string, seg_labelled_makers "IOU" (sr_iou rep))] r1).
        { unfold r1. repeat apply Forall2_cons; try apply Forall2_nil; (split; [reflexivity|]); cbn [fst snd]; eapply labels_real; eassumption. }
        destruct L as [|l L].
        * inversion H6; inversion H7; inversion H8; inversion H9; subst. constructor.
        * apply appended_some; [exact F|]. inversion H6; inversion H7; inversion H8; inversion H9; subst. unfold r1, labels_doc.
          repeat match goal with H : _ = sr_precision rep |- _ => rewrite <- H | H : _ = sr_recall rep |- _ => rewrite <- H | H : _ = sr_f1 rep |- _ => rewrite <- H | H : _ = sr_iou rep |- _ => rewrite <- H end.
          repeat constructor; discriminate.
    - unfold agree_reports, seg_documents. cbv zeta. apply Forall2_app.
      + unfold r0. repeat apply Forall2_cons; try apply Forall2_nil; (split; [reflexivity|]); cbn [fst snd]; (constructor; [|constructor]); apply agree_document.
        * apply agree_float. exact H1.
        * unfold obj at 1 2. cbn [map fst snd]. apply agree_dict. repeat apply Forall2_cons; try apply Forall2_nil; (split; [reflexivity|]); cbn [snd].
          -- apply (table_agree L L (spec_iou ss v)). exact H2.
          -- apply rates_agree. exact H3.
          -- apply rates_agree. exact H4.
        * unfold mean_doc. destruct (sr_miou rep) as [m|]; [|subst L; apply agree_refl]. destruct H5 as [N H5]. destruct L; [congruence|]. apply agree_float. exact H5.
      + unfold if_any. destruct L as [|l L]; [constructor|]. unfold r1. repeat apply Forall2_cons; try apply Forall2_nil; (split; [reflexivity|]); cbn [fst snd].
        * apply (labels_agree "Precision" _ (spec_precision ss v)). exact H6.
        * apply (labels_agree "Recall" _ (spec_recall ss v)). exact H7.
        * apply (labels_agree "F1" _ (spec_f1 ss v)). exact H8.
        * apply (labels_agree "IOU" _ (fun l => spec_iou ss v l l)). exact H9.
  Qed.
End Seg.
