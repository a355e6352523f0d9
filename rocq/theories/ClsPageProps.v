(* C101, C102: per-datum examples, page by page, and the confusion matrix with examples of
   any classification evaluator (either back end, filtered any number of times).
   Vocabulary: PageSpec.v, ClsPageSpec.v, ClsCellSpec.v, ClsFilterSpec.v.
   Model: ClsPageModel.v, ClsCellModel.v. *)
From Verif Require Import Prelude PageSpec CacheModel ClsModel ClsSpec RocModel FlowModel ClsLabelProofs ClsLemmas ClsDemo ClsFilterModel ClsFilterSpec ClsFilterProofs ClsFilterCounts ClsFilterMain
  ClsFilterProps ClsPageModel ClsPageSpec ClsPageProofs ClsCellModel ClsCellSpec ClsCellProofs.
From Coq Require Import String.
Local Open Scope nat_scope.
Local Open Scope list_scope.

(* ---- C101: the examples of a page are the entries of the datums of that page of the
   remaining data, in the order in which the datums were added *)
Theorem C101_page :
  forall cs w e datums sel tol9 hm thrs limit offset,
  cls_evaluator cs w e -> few_labels cs -> Forall distinct_candidates cs -> expresses cs datums sel -> thrs <> [] ->
  cls_examples tol9 hm thrs datums limit offset e
  = Some (List.concat (map (datum_entries cs (cselect w sel) tol9 hm thrs) (page_of limit offset (filter (visible (cselect w sel)) cs)))).
Proof. intros cs w e datums sel tol9 hm thrs limit offset He Hf Hd Hs Hn. exact (cls_examples_page cs w e datums sel He Hf Hd Hs tol9 hm thrs limit offset Hn). Qed.
Print Assumptions C101_page.

(* consecutive pages of one size list everything exactly once *)
Theorem C101_pages :
  forall cs w e datums sel tol9 hm thrs n k,
  cls_evaluator cs w e -> few_labels cs -> Forall distinct_candidates cs -> expresses cs datums sel -> thrs <> [] ->
  List.length (filter (visible (cselect w sel)) cs) <= k * S n ->
  List.concat (map (fun i => match cls_examples tol9 hm thrs datums (Some (S n)) (i * S n) e with Some l => l | None => [] end) (seq 0 k))
  = match cls_examples tol9 hm thrs datums None 0 e with Some l => l | None => [] end.
Proof. exact cls_examples_pages. Qed.
Print Assumptions C101_pages.

(* an empty list of thresholds is refused, and nothing else is *)
Theorem C101_refused : forall tol9 hm thrs datums limit offset e, cls_examples tol9 hm thrs datums limit offset e = None <-> thrs = [].
Proof. intros tol9 hm thrs datums limit offset e. unfold cls_examples. destruct thrs; split; congruence. Qed.
Print Assumptions C101_refused.

Example C101_example :
  cls_examples 0 false [5; 7]%Z (fun _ => true) (Some 2) 1 cats_cfile
  = Some [ MkNamed (Some "u1") 5 [] [Some "dog"] [Some "cat"]; MkNamed (Some "u1") 7 [] [Some "dog"] [];
           MkNamed (Some "u2") 5 [] [Some "dog"] []; MkNamed (Some "u2") 7 [] [Some "dog"] [] ]%string
  /\ cls_examples 0 false [5]%Z (fun _ => true) (Some 2) 1 (cfile demo)
     = Some [ MkNamed (Some "u1") 5 [] [Some "dog"] [Some "cat"]; MkNamed (Some "u2") 5 [Some "dog"] [] [] ]%string
  /\ cls_evaluator demo cats_view cats_cfile /\ few_labels demo /\ Forall distinct_candidates demo /\ expresses demo (fun _ => true) all_kept.
Proof.
  split; [vm_compute; reflexivity|]. split; [vm_compute; reflexivity|].
  split; [exact cats_cfile_ok|]. split; [exact demo_few|]. split; [exact demo_distinct|apply expresses_all].
Qed.

(* ---- C102: the whole dictionary: no KeyError, every cell with its count and its examples
   in the order in which the datums were added *)
Theorem C102_matrix :
  forall cs w e datums sel tol9 hm thrs,
  cls_evaluator cs w e -> Forall distinct_candidates cs -> expresses cs datums sel -> thrs <> [] ->
  cls_confusion_examples tol9 hm thrs datums e
  = Some (map (fun kt => (snd kt, Some (cmx_of (map snd (ce_labels e)) (cselect w sel) hm (pass_cm tol9 (firstn (S (fst kt)) thrs)) cs)))
      (combine (seq 0 (List.length thrs)) thrs)).
Proof. exact cls_confusion_examples_meaning. Qed.
Print Assumptions C102_matrix.

(* the labels of the dictionary are the labels of the data, each once *)
Theorem C102_labels :
  forall cs w e, cls_evaluator cs w e -> Forall distinct_candidates cs ->
  NoDup (map snd (ce_labels e)) /\ forall l, In l (map snd (ce_labels e)) <-> In l (labels_of cs).
Proof. intros cs w e He Hd. split; [exact (names_nodup cs w e He Hd)|]. intros l. symmetry. exact (names_in cs w e He Hd l). Qed.
Print Assumptions C102_labels.

(* two evaluators of the same data filtered to the same view, stored in any way, have the
   same cells, examples included *)
Theorem C102_storage :
  forall cs w e e' datums sel tol9 hm thrs,
  cls_evaluator cs w e -> cls_evaluator cs w e' -> Forall distinct_candidates cs -> expresses cs datums sel ->
  forall l l' k thr thr' M M', cls_confusion_examples tol9 hm thrs datums e = Some l -> cls_confusion_examples tol9 hm thrs datums e' = Some l' ->
  nth_error l k = Some (thr, Some M) -> nth_error l' k = Some (thr', Some M') ->
  thr = thr' /\ (forall g p, cell_at M g p = cell_at M' g p) /\ (forall g, sget (cx_unmatched M) g = sget (cx_unmatched M') g).
Proof. exact cls_confusion_storage. Qed.
Print Assumptions C102_storage.

Example C102_example :
  cls_confusion_examples 0 false [5]%Z (fun _ => true) cats_cmem
  = Some [(5%Z, Some (MkCmx
      [ ("cat", [("cat", (2, [(Some "u0", Some 9%Z); (Some "u3", Some 5%Z)])); ("dog", (0, []))]);
        ("dog", [("cat", (1, [(Some "u1", Some 6%Z)])); ("dog", (0, []))]) ]
      [ ("cat", (0, [])); ("dog", (1, [Some "u2"])) ]))]%string
  /\ cls_evaluator demo cats_view cats_cmem /\ cls_evaluator demo cats_view cats_cfile.
Proof. split; [vm_compute; reflexivity|]. split; [exact cats_cmem_ok|exact cats_cfile_ok]. Qed.
