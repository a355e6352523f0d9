(* C124: metadata of classification data, and filters on it.  Vocabulary: ClsMetaSpec.v;
   [value_of m f]: the value of field [f] of the datum [m]; [c_where schema ms f P]: the
   filter "column [f] satisfies [P]" on the rows of the evaluator;
   [c_filtered e a F e']: [e'] is what Evaluator.filter returned when given [F] as
   datums, groundtruths or predictions ([a]), with either back end; [selected P f ms]:
   the data with a value that satisfies [P].  Model: ClsMetaModel.v. *)
From Verif Require Import Prelude Counting CacheModel CacheSpec ClsModel ClsSpec RocModel RocProofs RocMain RocCurve
  FlowModel FlowProofs FlowMore ClsDemo ClsFilterModel ClsFilterSpec ClsFilterProofs ClsFilterCounts ClsFilterMain ClsFilterRoc ClsFilterProps
  DetMetaModel ClsMetaModel ClsMetaSpec ClsMetaProofs ClsMetaMain.
From Coq Require Import String QArith.
Local Notation length := List.length (only parsing).
Local Notation concat := List.concat (only parsing).
Local Open Scope nat_scope.
Local Open Scope list_scope.

(* [demo] with metadata; "note" is not declared, "match" is the name of a reserved column *)
Definition mcdemo : list mcls :=
  map (fun x => MkMCls (fst x) (snd x)) (combine demo
    [[("site", VStr "north"); ("note", VInt 1)]; [("site", VStr "south"); ("match", VInt 7)]; [("site", VStr "north")]; []])%string.
Definition mcfields : list (string * string) := [("site", "s")]%string.
Definition mcschema : list string := Eval vm_compute in match cls_schema mcfields with Some s => s | None => [] end.
Lemma mcdemo_plain : map mc_cls mcdemo = demo.
Proof. reflexivity. Qed.
Lemma mcdemo_one : one_metadata mcdemo.
Proof. intros m m' [<-|[<-|[<-|[<-|[]]]]] [<-|[<-|[<-|[<-|[]]]]]; cbn; intros E; try discriminate; reflexivity. Qed.
Definition is_value (v x : value) : bool := if value_dec v x then true else false.
Definition north : crow -> bool := c_where mcschema mcdemo "site" (is_value (VStr "north")).
Definition north_mem : ceval := Eval vm_compute in cgot (cls_filter_mem 10 one_by_one (cmem demo) north None None).
Definition north_file : ceval := Eval vm_compute in cgot (cls_filter_file 3 2 one_by_one (cfile demo) (fun _ => true) (Some north) None).
Definition north_only : ceval := Eval vm_compute in cmem (selected (is_value (VStr "north")) "site" mcdemo).

(* ---------------------------------------------------------------- C124 *)
(* the rows written for data with metadata: those of the data without metadata, each
   with the columns of the schema; a declared field has the value of the datum, else
   null; metadata does not change the reserved columns, and undeclared fields are
   dropped *)
Theorem C124_written :
  forall fields schema ms, cls_schema fields = Some schema -> one_metadata ms ->
  snd (m_add_data schema mcloader_init ms) = snd (add_data loader_init (map mc_cls ms)) /\
  mcl_labels (fst (m_add_data schema mcloader_init ms)) = ld_labels (fst (add_data loader_init (map mc_cls ms))) /\
  mcl_writes (fst (m_add_data schema mcloader_init ms)) = map (map (c_columns schema ms)) (writes_of (map mc_cls ms)).
Proof. exact c_written. Qed.
Print Assumptions C124_written.
Example C124_written_example :
  cls_schema mcfields = Some mcschema /\ one_metadata mcdemo /\
  map (map (fun x => (dget x "datum_uid", dget x "pd_label", dget x "site", dget x "match", dget x "note"))) (mcl_writes (fst (m_add_data mcschema mcloader_init (firstn 2 mcdemo))))
  = [[(Some (VStr "u0"), Some (VStr "cat"), Some (VStr "north"), Some (VBool true), None);
      (Some (VStr "u0"), Some (VStr "dog"), Some (VStr "north"), Some (VBool false), None)];
     [(Some (VStr "u1"), Some (VStr "cat"), Some (VStr "south"), Some (VBool false), None);
      (Some (VStr "u1"), Some (VStr "dog"), Some (VStr "south"), Some (VBool true), None)]]%string.
Proof. split; [reflexivity|]. split; [exact mcdemo_one|]. vm_compute. reflexivity. Qed.

(* the filter on such rows is the filter on the rows without metadata *)
Theorem C124_filter :
  forall fields schema ms datums gts pds tables, cls_schema fields = Some schema ->
  mc_filter_tables datums gts pds (map (map (c_columns schema ms)) tables)
  = map (map (c_columns schema ms))
      (filter_tables (fun r => datums (c_columns schema ms r)) (option_map (fun f r => f (c_columns schema ms r)) gts)
         (option_map (fun f r => f (c_columns schema ms r)) pds) tables).
Proof. exact c_filter_cols. Qed.
Print Assumptions C124_filter.
Example C124_filter_example :
  map (map (fun x => (dget x "datum_uid", dget x "pd_label")))
    (mc_filter_tables (fun _ => true) (Some (field "site" (is_value (VStr "north")))) (Some (field "pd_label" (is_value (VStr "cat"))))
       (map (map (c_columns mcschema mcdemo)) (ce_tables (cmem demo))))
  = [[(Some (VStr "u0"), Some (VStr "cat")); (Some (VStr "u2"), Some (VStr "cat"))]]%string.
Proof. vm_compute. reflexivity. Qed.

(* a filter on a declared field keeps the data with the required value, with all their
   candidates, whichever argument it is passed as *)
Theorem C124_selected :
  forall ms fields schema f P, cls_schema fields = Some schema -> In f (map fst fields) -> one_metadata ms ->
  forall w e a e', cls_evaluator (map mc_cls ms) w e -> c_filtered e a (c_where schema ms f P) e' ->
  exists w', cls_evaluator (map mc_cls ms) w' e' /\
    forall m l, In m ms -> In l (c_predictions (mc_cls m)) -> w' (mc_cls m) l = w (mc_cls m) l && P (value_of m f).
Proof. exact meta_view. Qed.
Print Assumptions C124_selected.
(* so the counts, the confusion matrix, the accuracy and the ROCAUC of the filtered
   evaluator are those of an evaluator built from the selected data *)
Theorem C124_metrics :
  forall ms fields schema f P, cls_schema fields = Some schema -> In f (map fst fields) -> one_metadata ms ->
  Forall distinct_candidates (map mc_cls ms) -> few_labels (map mc_cls ms) ->
  forall e a e' e'', cls_evaluator (map mc_cls ms) all_kept e -> c_filtered e a (c_where schema ms f P) e' ->
  cls_evaluator (selected P f ms) all_kept e'' ->
  (forall tol hm thrs k thr l i i', nth_error thrs k = Some thr -> has_number e' l i -> has_number e'' l i' ->
     exists row row' c, nth_error (cls_counts tol hm thrs (fun _ => true) e') k = Some row /\
       nth_error (cls_counts tol hm thrs (fun _ => true) e'') k = Some row' /\ nth_error row i = Some c /\ nth_error row' i' = Some c) /\
  (forall tol9 hm thrs k thr, nth_error thrs k = Some thr ->
     exists M M', nth_error (cls_confusion tol9 hm thrs (fun _ => true) e') k = Some M /\
       nth_error (cls_confusion tol9 hm thrs (fun _ => true) e'') k = Some M' /\
       (forall g p i j i' j', has_number e' g i -> has_number e' p j -> has_number e'' g i' -> has_number e'' p j' ->
          cm M (Z.of_nat i) (Z.of_nat j) = cm M' (Z.of_nat i') (Z.of_nat j')) /\
       (forall g i i', has_number e' g i -> has_number e'' g i' -> cm_unmatched M (Z.of_nat i) = cm_unmatched M' (Z.of_nat i'))) /\
  (forall tol hm thr, (cls_accuracy tol hm thr (fun _ => true) e' == cls_accuracy tol hm thr (fun _ => true) e'')%Q) /\
  (forall l i i', has_number e' l i -> has_number e'' l i' ->
     (origin_kept i (ce_curve e') /\ origin_kept i' (ce_curve e'')) \/ unmixed_top (outcomes l (selected P f ms)) ->
     exists v v', nth_error (cls_rocauc e') i = Some v /\ nth_error (cls_rocauc e'') i' = Some v' /\ (v == v')%Q).
Proof. exact meta_metrics. Qed.
Print Assumptions C124_metrics.
Example C124_metrics_example :
  Forall distinct_candidates demo /\ few_labels demo /\ cls_evaluator demo all_kept (cmem demo) /\ cls_evaluator demo all_kept (cfile demo) /\
  c_filtered (cmem demo) AsDatums north north_mem /\ c_filtered (cfile demo) AsGroundtruths north north_file /\
  cls_evaluator (selected (is_value (VStr "north")) "site" mcdemo) all_kept north_only /\
  map c_uid (selected (is_value (VStr "north")) "site" mcdemo) = ["u0"; "u2"]%string /\
  cls_counts 0 false [4]%Z (fun _ => true) north_mem = [[MkCounts 1 0 0 1; MkCounts 1 0 0 1]] /\
  cls_counts 0 false [4]%Z (fun _ => true) north_file = cls_counts 0 false [4]%Z (fun _ => true) north_mem /\
  cls_counts 0 false [4]%Z (fun _ => true) north_only = cls_counts 0 false [4]%Z (fun _ => true) north_mem /\
  cls_counts 0 false [4]%Z (fun _ => true) (cmem demo) <> cls_counts 0 false [4]%Z (fun _ => true) north_mem.
Proof.
  split; [exact demo_distinct|]. split; [exact demo_few|].
  split; [apply cmem_ok; [exact demo_accepted|vm_compute; discriminate]|]. split; [apply cfile_ok; [exact demo_accepted|vm_compute; discriminate]|].
  split; [left; exists 10, one_by_one; vm_compute; reflexivity|]. split; [right; exists 3, 2, one_by_one; split; [apply one_by_one_ok|vm_compute; reflexivity]|].
  split.
  - replace north_only with (cmem (selected (is_value (VStr "north")) "site" mcdemo)) by (vm_compute; reflexivity).
    apply cmem_ok; [|vm_compute; discriminate]. vm_compute. repeat constructor; discriminate.
  - split; [vm_compute; reflexivity|]. split; [vm_compute; reflexivity|]. split; [vm_compute; reflexivity|]. split; [vm_compute; reflexivity|]. vm_compute. discriminate.
Qed.
