(* C103-C105: the confusion matrix of object detection, the pages of examples and the
   confusion matrix with examples, exactly.  Vocabulary: DetTurnSpec.v (which prediction is
   matched with which ground truth, and the lists that follow), DetCellSpec.v (the
   dictionaries), DetFilterSpec.v ([shows], [pruned]).  Model: DetCellModel.v. *)
From Verif Require Import Prelude PageSpec Counting CacheModel ClsModel DetModel DetExModel DetSpec DetFlowModel DetReportModel DetEnd DetDemo
  DetFilterModel DetFilterSpec DetFilterProps ClsCellModel ClsCellSpec DetTurnSpec DetTurnProofs DetCellModel DetCellSpec DetCellProofs.
From Coq Require Import String Lia.
Local Open Scope nat_scope.
Local Open Scope list_scope.

(* ---------------------------------------------------------------- C103 *)
(* the matching is the only one in which pairs are taken in turn: best score, then best
   overlap, then first ground truth, then first prediction *)
Theorem C103_in_turn : forall eps d, in_turn eps d (matching eps d).
Proof. exact matching_in_turn. Qed.
Print Assumptions C103_in_turn.
Theorem C103_only_one : forall eps d M, in_turn eps d M -> forall p g, M p g = matching eps d p g.
Proof. intros eps d M H. exact (in_turn_unique eps d M (matching eps d) H (matching_in_turn eps d)). Qed.
Print Assumptions C103_only_one.

(* the labels of the report are those of the data, each once *)
Theorem C103_labels :
  forall eps unit ds L w e, det_input unit ds -> shows eps unit ds L w e -> exists names, named e ds names.
Proof. intros eps unit ds L w e Hin Hsh. exists (names_of e). exact (e_named eps unit ds L w e Hin Hsh). Qed.
Print Assumptions C103_labels.

(* every cell counts the matched pairs of the input *)
Theorem C103_matrix :
  forall eps unit ds L w e, (0 <= unit)%Z -> det_input unit ds -> few_annotations ds -> Forall distinct_pd_labels ds -> shows eps unit ds L w e ->
  forall sel datums, det_selects ds datums sel -> forall names, named e ds names ->
  forall ious scores, ious <> [] -> scores <> [] ->
  det_confusion_metrics eps ious scores datums e
  = Some (flat_map (fun t => map (fun s => (t, s, counts_of names eps t s (map (pruned (by_selection w sel)) ds))) scores) ious).
Proof. exact det_confusion_meaning. Qed.
Print Assumptions C103_matrix.
Theorem C103_refused :
  forall eps ious scores datums e, det_confusion_metrics eps ious scores datums e = None <-> ious = [] \/ scores = [].
Proof. intros eps ious scores datums e. unfold det_confusion_metrics. destruct ious, scores; split; intros H; try congruence; try (destruct H; congruence); auto. Qed.
Print Assumptions C103_refused.

Local Notation half := 500000000%Z.
Example C103_example :
  det_confusion_metrics 1 [half] [half] (fun _ => true) ddemo_mem
  = Some [(half, half, MkDCounts [(Some "cat", [(Some "cat", 1); (Some "dog", 0)]); (Some "dog", [(Some "cat", 0); (Some "dog", 0)])]
      [(Some "cat", 1); (Some "dog", 1)] [(Some "cat", 1); (Some "dog", 1)])]%string
  /\ (0 <= one)%Z /\ det_input one ddemo /\ few_annotations ddemo /\ Forall distinct_pd_labels ddemo /\ shows 1 one ddemo pets full_view ddemo_mem
  /\ det_selects ddemo (fun _ => true) (fun _ => true) /\ named ddemo_mem ddemo pets.
Proof.
  split; [vm_compute; reflexivity|]. split; [discriminate|]. split; [exact ddemo_input|]. split; [exact ddemo_ann|]. split; [exact ddemo_distinct|].
  split; [apply ddemo_shows|]. split; [apply all_selects|]. split; [reflexivity|]. split.
  - repeat (constructor; [cbn; intuition discriminate|]). constructor.
  - intros v. cbn. intuition congruence.
Qed.
(* equal scores and overlaps: the first prediction is matched, the other is not *)
Definition tied : list detection :=
  [ MkDet "img0" [gt "a" "cat"; gt "b" "cat"] [pd "x" "cat" 700000000; pd "y" "dog" 700000000]
      (iou_of [ov 0 0 600000000; ov 1 0 600000000; ov 1 1 200000000]) ]%string%Z.
Definition tied_mem : deval := Eval vm_compute in get_eval (mem_eval 1 one 4 singles [tied]).
Example C103_tied :
  det_evaluator 1 one tied tied_mem /\ map (matched_pairs 1) tied = [[(0, 0); (1, 1)]] /\
  det_confusion_metrics 1 [half; 100000000%Z] [half] (fun _ => true) tied_mem
  = Some [(half, half, MkDCounts [(Some "cat", [(Some "cat", 1); (Some "dog", 0)]); (Some "dog", [(Some "cat", 0); (Some "dog", 0)])]
             [(Some "cat", 1); (Some "dog", 0)] [(Some "cat", 0); (Some "dog", 1)]);
          (100000000%Z, half, MkDCounts [(Some "cat", [(Some "cat", 1); (Some "dog", 1)]); (Some "dog", [(Some "cat", 0); (Some "dog", 0)])]
             [(Some "cat", 0); (Some "dog", 0)] [(Some "cat", 0); (Some "dog", 0)])]%string.
Proof. split; [apply (mem_eval_ok 1 one 4 singles [tied]); vm_compute; reflexivity|]. split; vm_compute; reflexivity. Qed.

(* ---------------------------------------------------------------- C104 *)
(* a page of examples is the page of the images that have something to show, each with its
   entries for every IoU threshold and every score threshold *)
Theorem C104_page :
  forall eps unit ds L w e, (0 <= unit)%Z -> det_input unit ds -> few_det_labels ds -> few_annotations ds ->
  Forall distinct_pd_labels ds -> shows eps unit ds L w e -> forall sel datums, det_selects ds datums sel ->
  forall ious scores limit offset, ious <> [] -> scores <> [] ->
  det_examples eps ious scores datums limit offset e
  = Some (flat_map (image_examples eps ious scores) (page_of limit offset (filter shown_image (map (pruned (by_selection w sel)) ds)))).
Proof. exact det_examples_meaning. Qed.
Print Assumptions C104_page.
(* consecutive pages of one size list everything exactly once *)
Theorem C104_pages :
  forall eps unit ds L w e, (0 <= unit)%Z -> det_input unit ds -> few_det_labels ds -> few_annotations ds ->
  Forall distinct_pd_labels ds -> shows eps unit ds L w e -> forall sel datums, det_selects ds datums sel ->
  forall ious scores n k, ious <> [] -> scores <> [] -> List.length (filter shown_image (map (pruned (by_selection w sel)) ds)) <= k * S n ->
  List.concat (map (fun i => match det_examples eps ious scores datums (Some (S n)) (i * S n) e with Some l => l | None => [] end) (seq 0 k))
  = match det_examples eps ious scores datums None 0 e with Some l => l | None => [] end.
Proof. exact det_examples_pages. Qed.
Print Assumptions C104_pages.
Theorem C104_refused :
  forall eps ious scores datums limit offset e, det_examples eps ious scores datums limit offset e = None <-> ious = [] \/ scores = [].
Proof. intros eps ious scores datums limit offset e. unfold det_examples. destruct ious, scores; split; intros H; try congruence; try (destruct H; congruence); auto. Qed.
Print Assumptions C104_refused.

Local Notation u x := (Some (Some x)).
Example C104_example :
  det_examples 1 [half] [half; 800000000%Z] (fun _ => true) (Some 2) 0 ddemo_file
  = Some [(Some "img0", half, half, MkDEx [(u "a", u "x")] [u "y"; u "z"] [u "b"]); (Some "img0", half, 800000000%Z, MkDEx [(u "a", u "x")] [u "z"] [u "b"]);
          (Some "img1", half, half, MkDEx [] [] [u "c"]); (Some "img1", half, 800000000%Z, MkDEx [] [] [u "c"])]%string
  /\ det_examples 1 [half] [half] (fun _ => true) (Some 2) 1 cats_mem
     = Some [(Some "img1", half, half, MkDEx [] [] [u "c"]); (Some "img2", half, half, MkDEx [] [] [])]%string
  /\ few_det_labels ddemo /\ shows 1 one ddemo pets cat_view cats_mem /\ shows 1 one ddemo pets full_view ddemo_file.
Proof.
  split; [vm_compute; reflexivity|]. split; [vm_compute; reflexivity|]. split; [exact ddemo_few|]. split; [exact cats_shows|apply ddemo_shows].
Qed.

(* a prediction with two labels and no match is listed twice among the false positives *)
Definition unmatched_pair : list detection := [ MkDet "img0" [] [MkAnn "x" ["cat"; "dog"] [900000000; 800000000]%Z] (iou_of []) ]%string%Z.
Definition unmatched_mem : deval := Eval vm_compute in get_eval (mem_eval 1 one 4 singles [unmatched_pair]).
Example C104_repeated :
  det_evaluator 1 one unmatched_pair unmatched_mem /\ det_examples 1 [half] [half] (fun _ => true) None 0 unmatched_mem = Some [(Some "img0", half, half, MkDEx [] [u "x"; u "x"] [])]%string.
Proof. split; [apply (mem_eval_ok 1 one 4 singles [unmatched_pair]); vm_compute; reflexivity|vm_compute; reflexivity]. Qed.

(* ---------------------------------------------------------------- C105 *)
(* the matrix with examples: no lookup fails, every cell lists its pairs in the order of
   the input, and its count is their number *)
Theorem C105_matrix :
  forall eps unit ds L w e, (0 <= unit)%Z -> det_input unit ds -> few_annotations ds -> Forall distinct_pd_labels ds -> shows eps unit ds L w e ->
  forall sel datums, det_selects ds datums sel -> forall names, named e ds names ->
  forall ious scores, ious <> [] -> scores <> [] ->
  det_confusion_examples eps ious scores datums e
  = Some (flat_map (fun t => map (fun s => (t, s, Some (dcmx_of names eps t s (map (pruned (by_selection w sel)) ds)))) scores) ious).
Proof. exact det_confusion_examples_meaning. Qed.
Print Assumptions C105_matrix.
(* its counts are those of the matrix without examples *)
Theorem C105_counts :
  forall eps unit ds L w e, (0 <= unit)%Z -> det_input unit ds -> few_annotations ds -> Forall distinct_pd_labels ds -> shows eps unit ds L w e ->
  forall sel datums, det_selects ds datums sel -> forall ious scores, ious <> [] -> scores <> [] ->
  option_map (map (fun x => (fst x, option_map forget (snd x)))) (det_confusion_examples eps ious scores datums e)
  = option_map (map (fun x => (fst x, Some (snd x)))) (det_confusion_metrics eps ious scores datums e).
Proof.
  intros eps unit ds L w e Hu Hin Hann Hdis Hsh sel datums Hsel ious scores Hi Hs. destruct (C103_labels eps unit ds L w e Hin Hsh) as (names & Hn).
  rewrite (C103_matrix eps unit ds L w e Hu Hin Hann Hdis Hsh sel datums Hsel names Hn ious scores Hi Hs).
  rewrite (C105_matrix eps unit ds L w e Hu Hin Hann Hdis Hsh sel datums Hsel names Hn ious scores Hi Hs).
  cbn [option_map]. f_equal. rewrite !flat_map_concat_map, !concat_map, !map_map. f_equal. apply map_ext. intros t. rewrite !map_map. apply map_ext. intros s.
  cbn [fst snd option_map]. rewrite forget_counts. reflexivity.
Qed.
Print Assumptions C105_counts.
(* two evaluators of the same view of the data, stored in any way, agree on every cell *)
Theorem C105_storage :
  forall eps t s unit ds L L' w e e', (0 <= unit)%Z -> det_input unit ds -> few_annotations ds ->
  Forall distinct_pd_labels ds -> shows eps unit ds L w e -> shows eps unit ds L' w e' -> forall sel datums, det_selects ds datums sel ->
  forall M M', det_cmx eps t s datums e = Some M -> det_cmx eps t s datums e' = Some M' ->
  forall g, (forall p, dcell_at M g p = dcell_at M' g p) /\ lget (dx_gts M) (Some g) = lget (dx_gts M') (Some g) /\ lget (dx_pds M) (Some g) = lget (dx_pds M') (Some g).
Proof. exact det_cmx_storage. Qed.
Print Assumptions C105_storage.

Example C105_example :
  det_confusion_examples 1 [half] [half] (fun _ => true) ddemo_file
  = Some [(half, half, Some (MkDCmx
      [(Some "cat", [(Some "cat", (1, [("img0", Some "a", Some "x")])); (Some "dog", (0, []))]);
       (Some "dog", [(Some "cat", (0, [])); (Some "dog", (0, []))])]
      [(Some "cat", (1, [("img1", Some "c")])); (Some "dog", (1, [("img0", Some "b")]))]
      [(Some "cat", (1, [("img0", Some "y")])); (Some "dog", (1, [("img0", Some "z")]))]))]%string
  /\ det_confusion_examples 1 [half] [100000000%Z] (fun _ => true) cats_mem
  = Some [(half, 100000000%Z, Some (MkDCmx
      [(Some "cat", [(Some "cat", (1, [("img0", Some "a", Some "x")])); (Some "dog", (0, []))]);
       (Some "dog", [(Some "cat", (0, [])); (Some "dog", (0, []))])]
      [(Some "cat", (1, [("img1", Some "c")])); (Some "dog", (0, []))]
      [(Some "cat", (2, [("img0", Some "y"); ("img2", Some "w")])); (Some "dog", (0, []))]))]%string.
Proof. split; vm_compute; reflexivity. Qed.
