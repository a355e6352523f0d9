(* C123: metadata of object detection data, and filters on it.  Vocabulary:
   DetMetaSpec.v; [of_datum d f], [of_annotation d a f]: the value of field [f] of a
   datum, and of an annotation of it (its own value, else that of the datum);
   [where_field schema ds f P]: the filter "column [f] satisfies [P]" on the rows of the
   evaluator; [filtered unit e datums gts pds e']: [e'] is what the filter call
   returned, with either back end; [has_gt], [has_pd]: the ground truth / the label of
   the prediction is in the evaluator.  Model: DetMetaModel.v, DetFilterModel.v. *)
From Verif Require Import Prelude Counting CacheModel CacheSpec ClsModel FlowModel DetModel DetExModel DetSpec DetFlowModel
  DetReportModel DetOrderProofs DetEnd DetDemo DetFilterModel DetFilterSpec DetFilterProofs DetFilterMain DetFilterProps
  DetMetaModel DetMetaSpec DetMetaProofs DetMetaMain.
From Coq Require Import String Lia.
Local Open Scope nat_scope.
Local Open Scope list_scope.
Local Notation length := List.length (only parsing).
Local Notation concat := List.concat (only parsing).

(* two images; "source" is used by ground truths and predictions, "camera" by images and
   one prediction, "size" by ground truths only, "model" by predictions only, "night" by
   images only; "note" is not declared *)
Definition mdemo : list mdet :=
  [MkMDet "img0"
     [MkMAnn (MkAnn "g0" ["cat"] []) [("source", VStr "human"); ("size", VInt 1); ("note", VStr "x")];
      MkMAnn (MkAnn "g1" ["cat"] []) [("source", VStr "human"); ("size", VInt 2)]]
     [MkMAnn (MkAnn "p0" ["cat"; "dog"] [900000000; 200000000]%Z) [("source", VStr "robot"); ("model", VStr "m1")]]
     (iou_of [ov 0 0 800000000%Z]) [("camera", VStr "a"); ("night", VInt 1)];
   MkMDet "img1"
     [MkMAnn (MkAnn "g2" ["dog"] []) []]
     [MkMAnn (MkAnn "p1" ["dog"] [500000000]%Z) [("camera", VStr "z"); ("model", VStr "m2")]; MkMAnn (MkAnn "p2" ["dog"] [400000000]%Z) [("model", VStr "m1"); ("gt_id", VInt 7)]]
     (iou_of [ov 0 0 700000000%Z]) [("camera", VStr "b"); ("night", VInt 0)]]%string.
Definition mfields : list (string * string) := [("source", "s"); ("camera", "s"); ("size", "i"); ("model", "s"); ("night", "i")]%string.
Definition mschema : list string := Eval vm_compute in match det_schema mfields with Some s => s | None => [] end.
Definition mdemo_plain : list detection := map plain mdemo.
Definition mdemo_mem : deval := Eval vm_compute in get_eval (mem_eval 1 one 4 singles [mdemo_plain]).
Definition mdemo_file : deval := Eval vm_compute in get_eval (file_eval 1 one 2 1 singles [mdemo_plain]).
Lemma mdemo_mem_ok : det_evaluator 1 one mdemo_plain mdemo_mem.
Proof. apply (mem_eval_ok 1 one 4 singles [mdemo_plain]). vm_compute. reflexivity. Qed.
Lemma mdemo_file_ok : det_evaluator 1 one mdemo_plain mdemo_file.
Proof. apply (file_eval_ok 1 one 2 1 singles [mdemo_plain] _ singles_ok). vm_compute. reflexivity. Qed.
Lemma mdemo_input : det_input one mdemo_plain.
Proof. unfold det_input, mdemo_plain, mdemo. cbn [map plain mt_uid mt_gts mt_pds mt_iou ma_ann]. inputs. Qed.
Lemma mdemo_shows : shows 1 one mdemo_plain pets full_view mdemo_mem /\ shows 1 one mdemo_plain pets full_view mdemo_file.
Proof. split; (apply Shows_built; [apply mdemo_mem_ok || apply mdemo_file_ok|apply pets_no; reflexivity]). Qed.
Lemma mdemo_meaning : one_meaning mdemo.
Proof.
  unfold one_meaning, mdemo. cbn. split; [|split].
  - intros d d' [<-|[<-|[]]] [<-|[<-|[]]]; cbn; intros E; try discriminate; reflexivity.
  - intros d d' a a' [<-|[<-|[]]] [<-|[<-|[]]]; cbn; intros Ha Ha'; repeat (destruct Ha as [<-|Ha]); try contradiction;
      repeat (destruct Ha' as [<-|Ha']); try contradiction; cbn; intros E; try discriminate; reflexivity.
  - intros d d' a a' [<-|[<-|[]]] [<-|[<-|[]]]; cbn; intros Ha Ha'; repeat (destruct Ha as [<-|Ha]); try contradiction;
      repeat (destruct Ha' as [<-|Ha']); try contradiction; cbn; intros E; try discriminate; reflexivity.
Qed.
Definition is_val (v x : value) : bool := if value_dec v x then true else false.
Definition mwhere (f : string) (v : value) : drow -> bool := where_field mschema mdemo f (is_val v).
Definition mkept (r : fresult deval) : list (string * Z * Z * option string) :=
  map (fun r => (d_uid r, d_gt r, d_pd r, d_pd_label r)) (concat (de_detailed (got r))).

(* ---------------------------------------------------------------- C123 *)
(* the rows written for data with metadata: those of the data without metadata, each
   with the columns of the schema; a declared field has the value of the prediction of
   the row, else of its ground truth, else of the datum, else null; metadata does not
   change the reserved columns, and undeclared fields are dropped *)
Theorem C123_written :
  forall eps fields schema ds, det_schema fields = Some schema -> one_meaning ds ->
  match add_detections eps dloader_init (map plain ds), m_add_detections eps schema mloader_init ds with
  | Some l, Some m => l_labels l = ml_labels m /\ ml_writes m = map (map (row_columns schema ds)) (l_writes l)
  | None, None => True
  | _, _ => False
  end.
Proof. exact written. Qed.
Print Assumptions C123_written.
Example C123_written_example :
  det_schema mfields = Some mschema /\ one_meaning mdemo /\
  match m_add_detections 1 mschema mloader_init mdemo with
  | Some m => map (map (fun x => (dget x "datum_uid", dget x "gt_id", dget x "pd_id", dget x "source", dget x "camera", dget x "note"))) (ml_writes m)
      = [[(Some (VStr "img0"), Some (VInt 0), Some (VInt 0), Some (VStr "robot"), Some (VStr "a"), None);
          (Some (VStr "img0"), Some (VInt 0), Some (VInt 0), Some (VStr "robot"), Some (VStr "a"), None);
          (Some (VStr "img0"), Some (VInt 1), Some (VInt (-1)), Some (VStr "human"), Some (VStr "a"), None)];
         [(Some (VStr "img1"), Some (VInt 2), Some (VInt 1), Some VNull, Some (VStr "z"), None);
          (Some (VStr "img1"), Some (VInt (-1)), Some (VInt 2), Some VNull, Some (VStr "b"), None)]]
  | None => False
  end%string.
Proof. split; [reflexivity|]. split; [exact mdemo_meaning|]. vm_compute. reflexivity. Qed.

(* the filter on such rows is the filter on the rows without metadata *)
Theorem C123_filter :
  forall fields schema ds datums gts pds tables, det_schema fields = Some schema ->
  m_filter_tables datums gts pds (map (map (row_columns schema ds)) tables)
  = map (map (row_columns schema ds))
      (det_filter_tables (fun r => datums (row_columns schema ds r)) (option_map (fun f r => f (row_columns schema ds r)) gts)
         (option_map (fun f r => f (row_columns schema ds r)) pds) tables).
Proof. exact filter_rows. Qed.
Print Assumptions C123_filter.
Example C123_filter_example :
  map (map (fun x => (dget x "gt_id", dget x "pd_id", dget x "source")))
    (m_filter_tables (fun _ => true) None (Some (field "model" (is_val (VStr "m1")))) (map (map (row_columns mschema mdemo)) (de_detailed mdemo_mem)))
  = [[(Some (VInt 0), Some (VInt 0), Some (VStr "robot")); (Some (VInt 2), Some (VInt (-1)), Some VNull);
      (Some (VInt (-1)), Some (VInt 2), Some VNull); (Some (VInt 0), Some (VInt 0), Some (VStr "robot"));
      (Some (VInt 1), Some (VInt (-1)), Some (VStr "human"))]]%string.
Proof. vm_compute. reflexivity. Qed.

(* a filter on the ground truths by a field that no prediction uses keeps exactly the
   ground truths with the required value *)
Theorem C123_groundtruths_partial :
  forall eps unit ds L w e fields schema f P, det_input unit (map plain ds) -> shows eps unit (map plain ds) L w e ->
  det_schema fields = Some schema -> In f (map fst fields) -> one_meaning ds -> ~ pds_have ds f ->
  exists sg,
    (forall d g ga, In d ds -> nth_error (mt_gts d) g = Some ga -> sg (plain d) g = P (of_annotation d ga f)) /\
    forall e', filtered unit e (fun _ => true) (Some (where_field schema ds f P)) None e' ->
      shows eps unit (map plain ds) L (restrict w (fun _ => true) sg (fun _ _ _ => true)) e' /\
      (forall i d g ga, nth_error ds i = Some d -> nth_error (mt_gts d) g = Some ga ->
         (has_gt (map plain ds) L e' i g <-> has_gt (map plain ds) L e i g /\ P (of_annotation d ga f) = true)) /\
      (forall i d p pa v, nth_error ds i = Some d -> nth_error (mt_pds d) p = Some pa -> In v (a_labels (ma_ann pa)) ->
         (has_pd (map plain ds) L e' i p v <-> has_pd (map plain ds) L e i p v)).
Proof. exact kind_gts. Qed.
Print Assumptions C123_groundtruths_partial.
(* ... a filter on the predictions by a field that no ground truth uses *)
Theorem C123_predictions_partial :
  forall eps unit ds L w e fields schema f P, det_input unit (map plain ds) -> shows eps unit (map plain ds) L w e ->
  det_schema fields = Some schema -> In f (map fst fields) -> one_meaning ds -> ~ gts_have ds f ->
  exists sp,
    (forall d p pa v, In d ds -> nth_error (mt_pds d) p = Some pa -> sp (plain d) p v = P (of_annotation d pa f)) /\
    forall e', filtered unit e (fun _ => true) None (Some (where_field schema ds f P)) e' ->
      shows eps unit (map plain ds) L (restrict w (fun _ => true) (fun _ _ => true) sp) e' /\
      (forall i d g ga, nth_error ds i = Some d -> nth_error (mt_gts d) g = Some ga ->
         (has_gt (map plain ds) L e' i g <-> has_gt (map plain ds) L e i g)) /\
      (forall i d p pa v, nth_error ds i = Some d -> nth_error (mt_pds d) p = Some pa -> In v (a_labels (ma_ann pa)) ->
         (has_pd (map plain ds) L e' i p v <-> has_pd (map plain ds) L e i p v /\ P (of_annotation d pa f) = true)).
Proof. exact kind_pds. Qed.
Print Assumptions C123_predictions_partial.
(* ... a filter on the datums by a field that no annotation uses *)
Theorem C123_datums_partial :
  forall eps unit ds L w e fields schema f P, det_input unit (map plain ds) -> shows eps unit (map plain ds) L w e ->
  det_schema fields = Some schema -> In f (map fst fields) -> one_meaning ds -> ~ gts_have ds f -> ~ pds_have ds f ->
  exists sel,
    (forall d, In d ds -> sel (plain d) = P (of_datum d f)) /\ det_selects (map plain ds) (where_field schema ds f P) sel /\
    forall e', filtered unit e (where_field schema ds f P) None None e' ->
      shows eps unit (map plain ds) L (restrict w sel (fun _ _ => true) (fun _ _ _ => true)) e' /\
      (forall i d g ga, nth_error ds i = Some d -> nth_error (mt_gts d) g = Some ga ->
         (has_gt (map plain ds) L e' i g <-> has_gt (map plain ds) L e i g /\ P (of_datum d f) = true)) /\
      (forall i d p pa v, nth_error ds i = Some d -> nth_error (mt_pds d) p = Some pa -> In v (a_labels (ma_ann pa)) ->
         (has_pd (map plain ds) L e' i p v <-> has_pd (map plain ds) L e i p v /\ P (of_datum d f) = true)).
Proof. exact kind_datums. Qed.
Print Assumptions C123_datums_partial.
(* the ground truths of size 1, the predictions of model m1, the night images *)
Example C123_partial_example :
  det_input one mdemo_plain /\ shows 1 one mdemo_plain pets full_view mdemo_mem /\ shows 1 one mdemo_plain pets full_view mdemo_file /\
  one_meaning mdemo /\ ~ pds_have mdemo "size" /\ ~ gts_have mdemo "model" /\ ~ gts_have mdemo "night" /\ ~ pds_have mdemo "night" /\
  mkept (det_filter_mem one 4 singles mdemo_mem (fun _ => true) (Some (mwhere "size" (VInt 1))) None)
    = [("img0", 0, 0, Some "cat"); ("img1", -1, 1, Some "dog"); ("img1", -1, 2, Some "dog"); ("img0", 0, 0, Some "dog")]%string%Z /\
  mkept (det_filter_file one 2 1 singles mdemo_file (fun _ => true) None (Some (mwhere "model" (VStr "m2"))))
    = [("img0", 0, -1, Some "cat"); ("img0", 0, -1, Some "dog"); ("img0", 1, -1, None); ("img1", 2, 1, Some "dog")]%string%Z /\
  mkept (det_filter_mem one 4 singles mdemo_mem (mwhere "night" (VInt 1)) None None)
    = [("img0", 0, 0, Some "cat"); ("img0", 0, 0, Some "dog"); ("img0", 1, -1, None)]%string%Z.
Proof.
  assert (D : forall k l, existsb (fun d => existsb (fun a => existsb (String.eqb k) (map fst (ma_meta a))) (l d)) mdemo = false ->
            ~ exists d a, In d mdemo /\ In a (l d) /\ In k (map fst (ma_meta a))).
  { intros k l H (d & a & H1 & H2 & H3). rewrite <- Bool.not_true_iff_false in H. apply H. apply existsb_exists. exists d. split; [exact H1|].
    apply existsb_exists. exists a. split; [exact H2|]. apply existsb_exists. exists k. split; [exact H3|apply String.eqb_refl]. }
  split; [exact mdemo_input|]. split; [apply mdemo_shows|]. split; [apply mdemo_shows|]. split; [exact mdemo_meaning|].
  repeat (split; [apply D; vm_compute; reflexivity|]). split; [vm_compute; reflexivity|]. split; vm_compute; reflexivity.
Qed.

(* in general, on an evaluator that was built and not filtered: a ground truth that
   overlaps predictions is kept if one of the pairs has the value, and the prediction's
   value counts before its own *)
Theorem C123_groundtruths :
  forall eps unit ds L e fields schema f P, det_input unit (map plain ds) -> det_evaluator eps unit (map plain ds) e ->
  (forall v vi, label_no e v vi <-> index_of v L = Some vi) ->
  det_schema fields = Some schema -> In f (map fst fields) -> one_meaning ds ->
  forall e' i d g ga, filtered unit e (fun _ => true) (Some (where_field schema ds f P)) None e' ->
  nth_error ds i = Some d -> nth_error (mt_gts d) g = Some ga ->
  (has_gt (map plain ds) L e' i g <->
   ((forall p, p < length (mt_pds d) -> (mt_iou d p g < eps)%Z) /\ P (of_annotation d ga f) = true) \/
   (exists p pa, nth_error (mt_pds d) p = Some pa /\ (eps <= mt_iou d p g)%Z /\ P (of_pair d ga pa f) = true)).
Proof. exact exact_gts. Qed.
Print Assumptions C123_groundtruths.
Theorem C123_predictions :
  forall eps unit ds L e fields schema f P, det_input unit (map plain ds) -> det_evaluator eps unit (map plain ds) e ->
  (forall v vi, label_no e v vi <-> index_of v L = Some vi) ->
  det_schema fields = Some schema -> In f (map fst fields) -> one_meaning ds ->
  forall e' i d p pa v, filtered unit e (fun _ => true) None (Some (where_field schema ds f P)) e' ->
  nth_error ds i = Some d -> nth_error (mt_pds d) p = Some pa -> In v (a_labels (ma_ann pa)) ->
  (has_pd (map plain ds) L e' i p v <->
   ((forall g, g < length (mt_gts d) -> (mt_iou d p g < eps)%Z) /\ P (of_annotation d pa f) = true) \/
   (exists g ga, nth_error (mt_gts d) g = Some ga /\ (eps <= mt_iou d p g)%Z /\ P (of_pair d ga pa f) = true)).
Proof. exact exact_pds. Qed.
Print Assumptions C123_predictions.
Example C123_exact_example :
  det_evaluator 1 one mdemo_plain mdemo_mem /\ det_evaluator 1 one mdemo_plain mdemo_file /\
  mkept (det_filter_mem one 4 singles mdemo_mem (fun _ => true) (Some (mwhere "source" (VStr "human"))) None)
    = [("img0", -1, 0, Some "cat"); ("img1", -1, 1, Some "dog"); ("img1", -1, 2, Some "dog"); ("img0", -1, 0, Some "dog"); ("img0", 1, -1, None)]%string%Z.
Proof. split; [exact mdemo_mem_ok|]. split; [exact mdemo_file_ok|]. vm_compute. reflexivity. Qed.

(* fields used by ground truths and predictions: selecting the ground truths of source
   "human" drops g0, whose source is "human", and selecting those of source "robot"
   keeps it, because it overlaps a prediction of source "robot" *)
Theorem C123_groundtruths_refuted :
  ~ forall eps unit ds L e fields schema f P, det_input unit (map plain ds) -> shows eps unit (map plain ds) L full_view e ->
  det_schema fields = Some schema -> In f (map fst fields) -> one_meaning ds ->
  forall e' i d g ga, filtered unit e (fun _ => true) (Some (where_field schema ds f P)) None e' ->
  nth_error ds i = Some d -> nth_error (mt_gts d) g = Some ga ->
  (has_gt (map plain ds) L e' i g <-> P (of_annotation d ga f) = true).
Proof.
  intros H.
  destruct (det_filter_mem one 4 singles mdemo_mem (fun _ => true) (Some (mwhere "source" (VStr "human"))) None) as [e'| | |] eqn:E; [|vm_compute in E; discriminate..].
  assert (F : filtered one mdemo_mem (fun _ => true) (Some (mwhere "source" (VStr "human"))) None e') by (left; eauto).
  specialize (H 1%Z one mdemo pets mdemo_mem mfields mschema "source"%string (is_val (VStr "human")) mdemo_input (proj1 mdemo_shows) eq_refl (or_introl eq_refl) mdemo_meaning e' 0 _ 0 _ F eq_refl eq_refl).
  destruct (proj2 H eq_refl) as (r & Hr & (d & ga & v & gi & _ & _ & _ & _ & _ & _ & _ & Eg & _)).
  vm_compute in E. injection E as <-. cbn in Hr. repeat (destruct Hr as [<-|Hr]; [vm_compute in Eg; discriminate|]). exact Hr.
Qed.
Print Assumptions C123_groundtruths_refuted.
(* ... selecting the predictions by size, which predictions do not have, keeps the
   prediction that overlaps a ground truth of that size *)
Theorem C123_predictions_refuted :
  ~ forall eps unit ds L e fields schema f P, det_input unit (map plain ds) -> shows eps unit (map plain ds) L full_view e ->
  det_schema fields = Some schema -> In f (map fst fields) -> one_meaning ds ->
  forall e' i d p pa v, filtered unit e (fun _ => true) None (Some (where_field schema ds f P)) e' ->
  nth_error ds i = Some d -> nth_error (mt_pds d) p = Some pa -> In v (a_labels (ma_ann pa)) ->
  (has_pd (map plain ds) L e' i p v <-> P (of_annotation d pa f) = true).
Proof.
  intros H.
  destruct (det_filter_mem one 4 singles mdemo_mem (fun _ => true) None (Some (mwhere "size" (VInt 1)))) as [e'| | |] eqn:E; [|vm_compute in E; discriminate..].
  assert (F : filtered one mdemo_mem (fun _ => true) None (Some (mwhere "size" (VInt 1))) e') by (left; eauto).
  specialize (H 1%Z one mdemo pets mdemo_mem mfields mschema "size"%string (is_val (VInt 1)) mdemo_input (proj1 mdemo_shows) eq_refl (or_intror (or_intror (or_introl eq_refl))) mdemo_meaning e' 0 _ 0 _ "cat"%string F eq_refl eq_refl (or_introl eq_refl)).
  assert (X : has_pd (map plain mdemo) pets e' 0 0 "cat").
  { vm_compute in E. injection E as <-. eexists. eexists. split; [left; reflexivity|]. unfold carries_pd. eexists. eexists. exists 0, 0.
    split; [reflexivity|]. split; [reflexivity|]. repeat (split; [reflexivity|]). reflexivity. }
  apply H in X. vm_compute in X. discriminate.
Qed.
Print Assumptions C123_predictions_refuted.
(* ... selecting the datums of camera "b" drops the pair of img1, whose prediction has a
   camera of its own, and keeps the rest of img1 *)
Theorem C123_datums_refuted :
  exists e', filtered one mdemo_mem (mwhere "camera" (VStr "b")) None None e' /\
    ~ has_gt mdemo_plain pets e' 1 0 /\ has_pd mdemo_plain pets e' 1 1 "dog" /\ ~ has_pd mdemo_plain pets e' 1 0 "dog".
Proof.
  destruct (det_filter_mem one 4 singles mdemo_mem (mwhere "camera" (VStr "b")) None None) as [e'| | |] eqn:E; [|vm_compute in E; discriminate..].
  exists e'. split; [left; eauto|]. vm_compute in E. injection E as <-. split; [|split].
  - intros (r & Hr & (d & ga & v & gi & _ & _ & _ & _ & _ & _ & _ & Eg & _)). cbn in Hr. repeat (destruct Hr as [<-|Hr]; [vm_compute in Eg; discriminate|]). exact Hr.
  - eexists. eexists. split; [left; reflexivity|]. unfold carries_pd. eexists. eexists. exists 0, 1.
    split; [reflexivity|]. split; [reflexivity|]. repeat (split; [reflexivity|]). reflexivity.
  - intros (r & s & Hr & (d & pa & n & pi & _ & _ & _ & _ & _ & _ & _ & _ & Ep & _)). cbn in Hr. repeat (destruct Hr as [<-|Hr]; [vm_compute in Ep; discriminate|]). exact Hr.
Qed.
Print Assumptions C123_datums_refuted.
