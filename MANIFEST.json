{
 "claims": [
  {
   "property": "C01",
   "status": "proved",
   "theorems": [
    "C01_file_cache_keeps_rows_in_order",
    "C01_filtered_read",
    "C01_count_rows"
   ],
   "note": ""
  },
  {
   "property": "C02",
   "status": "proved",
   "theorems": [
    "C02_memory_cache_keeps_every_row",
    "C02_memory_cache_keeps_order",
    "C02_write_table_overtakes_buffer_refuted"
   ],
   "note": "Multiset property for all histories; order under the side condition stated in the property; the unconditional order claim is refuted as a finding."
  },
  {
   "property": "C03",
   "status": "proved",
   "theorems": [
    "C03_rows_of_one_call_stay_in_one_file",
    "C03_write_table_gets_its_own_file"
   ],
   "note": ""
  },
  {
   "property": "C04",
   "status": "proved",
   "theorems": [
    "C04_file_size_bound",
    "C04_only_the_last_file_can_be_short",
    "C04_buffered_rows_bound"
   ],
   "note": ""
  },
  {
   "property": "C05",
   "status": "proved",
   "theorems": [
    "C05_listing_order_is_irrelevant",
    "C05_indices_increase",
    "C05_flushed_files_are_final",
    "C05_file_name_round_trip"
   ],
   "note": ""
  },
  {
   "property": "C06",
   "status": "proved",
   "theorems": [
    "C06_sort_is_the_stable_sort",
    "C06_sort_is_a_permutation",
    "C06_sort_with_override",
    "C06_empty_batch_drops_rows_refuted"
   ],
   "note": "File-backed sink, record batches assumed non-empty (parquet readers); the empty-batch behaviour is a separate finding."
  },
  {
   "property": "C07",
   "status": "proved",
   "theorems": [
    "C07_sort_does_not_depend_on_the_split"
   ],
   "note": ""
  },
  {
   "property": "C08",
   "status": "partial",
   "theorems": [
    "C08_memory_sink_not_sorted_refuted",
    "C08_memory_sink_behaviour",
    "C08_memory_to_memory_partial"
   ],
   "note": "False of the code for a multi-file source and a memory sink (refuted with witness); proved for the remaining combinations (C06 for file sinks, C08_memory_to_memory_partial)."
  },
  {
   "property": "C09",
   "status": "proved",
   "theorems": [
    "C09_page_contents",
    "C09_no_limit"
   ],
   "note": ""
  },
  {
   "property": "C10",
   "status": "proved",
   "theorems": [
    "C10_pages_partition_the_rows",
    "C10_pages_keep_order_if_fragments_sorted",
    "C10_page_has_at_most_limit_keys",
    "C10_a_key_is_never_split_over_pages"
   ],
   "note": ""
  },
  {
   "property": "C11",
   "status": "proved",
   "theorems": [
    "C11_create_then_load",
    "C11_create_refuses_existing",
    "C11_create_replaces_existing",
    "C11_delete_removes_and_is_idempotent",
    "C11_other_paths_untouched",
    "C11_histories_stay_healthy",
    "C11_zero_batch_size_refuted",
    "C11_delete_with_foreign_entry_refuted"
   ],
   "note": "For configurations with non-zero batch_size/rows_per_file and non-empty compression; two findings are recorded as _refuted theorems."
  },
  {
   "property": "C12",
   "status": "partial",
   "theorems": [
    "C12_crash_in_create_refuted",
    "C12_crash_in_delete_refuted",
    "C12_recoverable_iff",
    "C12_crash_recovery_partial"
   ],
   "note": "False of the code in the window without a complete .cfg file (refuted with witnesses); all other crash points proved recoverable."
  },
  {
   "property": "C13",
   "status": "proved",
   "theorems": [
    "C13_label_registry",
    "C13_labels_only_grow",
    "C13_extracted_labels",
    "C13_evaluator_labels"
   ],
   "note": ""
  },
  {
   "property": "C14",
   "status": "proved",
   "theorems": [
    "C14_one_row_per_candidate",
    "C14_empty_predictions_rejected"
   ],
   "note": ""
  },
  {
   "property": "C15",
   "status": "proved",
   "theorems": [
    "C15_counts_hardmax",
    "C15_counts_hardmax_complete",
    "C15_counts_without_hardmax"
   ],
   "note": "Exact counts for any data with distinct candidates, hardmax and not; the four-outcome reading for complete predictions is C15_counts_hardmax_complete."
  },
  {
   "property": "C16",
   "status": "partial",
   "theorems": [
    "C16_tp_plus_fn_partial",
    "C16_tp_plus_fn_covered_partial",
    "C16_uncovered_refuted",
    "C16_without_hardmax_refuted"
   ],
   "note": "False of the code in general: refuted for a ground truth outside the candidates and for hardmax=False; proved with hardmax (exact characterisation, and the full equation when every ground truth is a candidate)."
  },
  {
   "property": "C17",
   "status": "proved",
   "theorems": [
    "C17_metrics_in_unit_interval",
    "C17_metrics_are_ratios",
    "C17_accuracy_in_unit_interval",
    "C17_accuracy_without_hardmax_refuted"
   ],
   "note": "Accuracy bound for hardmax; refuted for hardmax=False with repeated candidates."
  },
  {
   "property": "C18",
   "status": "proved",
   "theorems": [
    "C18_split_independence",
    "C18_backends_agree"
   ],
   "note": ""
  },
  {
   "property": "C19",
   "status": "proved",
   "theorems": [
    "C19_confusion_entries",
    "C19_rows_conserve_ground_truths"
   ],
   "note": ""
  },
  {
   "property": "C20",
   "status": "partial",
   "theorems": [
    "C20_ascending_thresholds_partial",
    "C20_any_order_refuted"
   ],
   "note": "False of the code for lists that are not ascending (refuted); proved for ascending lists, C19_confusion_entries gives the general meaning."
  },
  {
   "property": "C21",
   "status": "proved",
   "theorems": [
    "C21_rocauc_is_mann_whitney",
    "C21_rocauc_degenerate",
    "C21_rocauc_in_memory",
    "C21_zero_scores_refuted",
    "C21_uncovered_refuted"
   ],
   "note": "Conditions on zero scores and on ground truths being candidates are necessary: C21_zero_scores_refuted, C21_uncovered_refuted."
  },
  {
   "property": "C22",
   "status": "partial",
   "theorems": [
    "C22_curve_split_independence_partial",
    "C22_isolated_origin_refuted"
   ],
   "note": "False of the code when a file isolates the origin and a positive and a negative share the highest score (refuted); proved for all other splits and data."
  },
  {
   "property": "C23",
   "status": "partial",
   "theorems": [
    "C23_finalize_protocol_memory",
    "C23_finalize_protocol_files_partial",
    "C23_second_finalize_raises",
    "C23_evaluator_isolation_files_refuted"
   ],
   "note": "Protocol proved on both back ends; isolation of a file-backed evaluator from later add_data calls is refuted."
  },
  {
   "property": "C24",
   "status": "proved",
   "theorems": [
    "C24_filter_keeps_selected_rows",
    "C24_filter_on_input",
    "C24_filter_then_evaluate",
    "C24_detection_rows",
    "C24_detection_empty_mem",
    "C24_detection_empty_file"
   ],
   "note": "Classification and object detection; segmentation filters are C40."
  },
  {
   "property": "C25",
   "status": "partial",
   "theorems": [
    "C25_formula",
    "C25_symmetric",
    "C25_range",
    "C25_disjoint",
    "C25_self_partial",
    "C25_one",
    "C25_tiny_box_refuted",
    "C25_matrix"
   ],
   "note": "Formula, symmetry, range, disjoint boxes and converse proved; IoU 1 for identical boxes only for area >= 1e-9 (refuted below)."
  },
  {
   "property": "C26",
   "status": "proved",
   "theorems": [
    "C26_formula",
    "C26_range",
    "C26_symmetric"
   ],
   "note": ""
  },
  {
   "property": "C27",
   "status": "partial",
   "theorems": [
    "C27_counted_once_partial",
    "C27_multi_label_refuted",
    "C27_one_row",
    "C27_best_row",
    "C27_kept"
   ],
   "note": "False of the code for a prediction with several labels, of which only the matching ones are counted (refuted); exact count proved."
  },
  {
   "property": "C28",
   "status": "proved",
   "theorems": [
    "C28_ties",
    "C28_true_positives",
    "C28_bounded",
    "C28_zero_threshold_refuted"
   ],
   "note": "Positive IoU thresholds; at threshold 0 nothing is a true positive (refuted). C28_ties covers exact IoU ties: the first listed ground truth is picked."
  },
  {
   "property": "C29",
   "status": "proved",
   "theorems": [
    "C29_groundtruths",
    "C29_tp_fn",
    "C29_tp_fp"
   ],
   "note": ""
  },
  {
   "property": "C30",
   "status": "proved",
   "theorems": [
    "C30_true_positives",
    "C30_predictions"
   ],
   "note": ""
  },
  {
   "property": "C31",
   "status": "proved",
   "theorems": [
    "C31_counts",
    "C31_false_negatives",
    "C31_pr_curve",
    "C31_mean_ap",
    "C31_label_numbers"
   ],
   "note": ""
  },
  {
   "property": "C32",
   "status": "proved",
   "theorems": [
    "C32_ties",
    "C32_average_precision",
    "C32_perfect",
    "C32_range"
   ],
   "note": "C32_ties covers exact IoU ties."
  },
  {
   "property": "C33",
   "status": "proved",
   "theorems": [
    "C33_matching",
    "C33_unique"
   ],
   "note": "The matching is a function of the image alone."
  },
  {
   "property": "C34",
   "status": "partial",
   "theorems": [
    "C34_membership_partial",
    "C34_absent_ids_refuted"
   ],
   "note": "Proved for sets of existing ids, the only use in the code; refuted for sets that contain absent ids."
  },
  {
   "property": "C35",
   "status": "partial",
   "theorems": [
    "C35_column",
    "C35_row_partial",
    "C35_row_refuted",
    "C35_diagonal_refuted"
   ],
   "note": "Columns proved; rows proved for single-label predictions and refuted otherwise; agreement of the diagonal with the precision-recall TP refuted."
  },
  {
   "property": "C36",
   "status": "proved",
   "theorems": [
    "C36_evaluator_exists",
    "C36_rows",
    "C36_nothing_lost",
    "C36_multi_label_groundtruth_refuted"
   ],
   "note": "Ground truths with one label, as documented; refuted for a ground truth given several scored labels."
  },
  {
   "property": "C37",
   "status": "proved",
   "theorems": [
    "C37_pixels_of_a_datum",
    "C37_repeated_label_refuted"
   ],
   "note": "Masks with distinct labels, as stated; two masks with the same label on one side lose pixels (refuted)."
  },
  {
   "property": "C38",
   "status": "partial",
   "theorems": [
    "C38_disjoint_partial",
    "C38_pixels",
    "C38_disjoint_input",
    "C38_three_masks_refuted",
    "C38_wrapped_count_refuted"
   ],
   "note": "False of the code for three or more masks with a chain of overlaps (refuted, with a stored count of 2^64-1 as a consequence); proved for masks disjoint from all earlier ones; masks only shrink and their union is kept."
  },
  {
   "property": "C39",
   "status": "proved",
   "theorems": [
    "C39_metrics",
    "C39_range"
   ],
   "note": "Values are exact rationals; total number of pixels below 2^64."
  },
  {
   "property": "C40",
   "status": "proved",
   "theorems": [
    "C40_pixels_kept",
    "C40_rows",
    "C40_relabelled",
    "C40_empty"
   ],
   "note": "Pixel conservation for arbitrary expressions; exact reports for expressions on datum fields, labels and fields of the annotation's own kind (see C59)."
  },
  {
   "property": "C41",
   "status": "partial",
   "theorems": [
    "C41_retries_partial",
    "C41_methods",
    "C41_negative_retries_refuted"
   ],
   "note": "Proved for retry counts >= 0; with a negative count no attempt is made and None is returned (refuted)."
  },
  {
   "property": "C42",
   "status": "partial",
   "theorems": [
    "C42_scores_partial",
    "C42_exchanges",
    "C42_empty_groundtruth_refuted",
    "C42_no_contexts_refuted"
   ],
   "note": "Range proved for every returned metric; exceptions characterised: context recall divides by zero on an empty statement list, hallucination raises without contexts (refuted), see also C44, C45."
  },
  {
   "property": "C43",
   "status": "proved",
   "theorems": [
    "C43_context_precision"
   ],
   "note": ""
  },
  {
   "property": "C44",
   "status": "partial",
   "theorems": [
    "C44_statements",
    "C44_verdicts_partial",
    "C44_counted_verdicts",
    "C44_unhashable_verdict_refuted",
    "C44_analysis_refuted"
   ],
   "note": "Exact acceptance proved; the type of analysis is not checked and an unhashable verdict raises TypeError (both refuted)."
  },
  {
   "property": "C45",
   "status": "partial",
   "theorems": [
    "C45_braces",
    "C45_first_integer_partial",
    "C45_long_integer_refuted"
   ],
   "note": "Braces proved; integers proved up to the digit limit of int(), beyond it ValueError (refuted)."
  },
  {
   "property": "C46",
   "status": "proved",
   "theorems": [
    "C46_schema_rejects_reserved_names",
    "C46_metadata_fields_roundtrip"
   ],
   "note": ""
  },
  {
   "property": "C47",
   "status": "proved",
   "theorems": [
    "C47_examples_match_counts",
    "C47_examples_are_the_datums",
    "C47_detection_examples_match_counts",
    "C47_disjoint_lists_refuted"
   ],
   "note": "Classification and detection; an example may list a multi-label prediction as both TP and FP (refuted disjointness)."
  },
  {
   "property": "C48",
   "status": "partial",
   "theorems": [
    "C48_index_any",
    "C48_filtered_curve_partial",
    "C48_filtered_ap_partial",
    "C48_filtered_map_partial",
    "C48_rounding_format",
    "C48_rounding_nearest",
    "C48_rounding_ties",
    "C48_level_refuted",
    "C48_levels_partial",
    "C48_index_in_range",
    "C48_pr_curve_partial",
    "C48_average_precision_partial",
    "C48_mean_average_precision_partial",
    "C48_refuted"
   ],
   "note": "False at recall 0.29, 0.57 and 0.58 (refuted, also through the whole evaluator); proved everywhere else, with the resulting AP at most 1/101 lower and equal unless the label has a multiple of 50 ground truths."
  },
  {
   "property": "C49",
   "status": "proved",
   "theorems": [
    "C49_ranked_rows"
   ],
   "note": ""
  },
  {
   "property": "C50",
   "status": "partial",
   "theorems": [
    "C50_accuracy_partial",
    "C50_filtered_accuracy_refuted"
   ],
   "note": "False of the code for a proper datum filter (refuted); proved: correct selected datums over all datums."
  },
  {
   "property": "C51",
   "status": "proved",
   "theorems": [
    "C51_memory_sort_by",
    "C51_file_sort_by"
   ],
   "note": ""
  },
  {
   "property": "C52",
   "status": "proved",
   "theorems": [
    "C52_datum_examples"
   ],
   "note": ""
  },
  {
   "property": "C53",
   "status": "partial",
   "theorems": [
    "C53_detailed_files_partial",
    "C53_files_refuted",
    "C53_raises_refuted",
    "C53_detailed_partial",
    "C53_second_finalize_refuted"
   ],
   "note": "False of the code: ranked rows are written again (refuted, in memory and in files; compute_precision_recall can then raise an IndexError); detailed rows and labels unchanged."
  },
  {
   "property": "C54",
   "status": "proved",
   "theorems": [
    "C54_confusion_matrix_independent_of_storage"
   ],
   "note": ""
  },
  {
   "property": "C55",
   "status": "proved",
   "theorems": [
    "C55_report_entries",
    "C55_report_once",
    "C55_labels",
    "C55_pr_curve",
    "C55_ranges",
    "C55_average_ranges"
   ],
   "note": ""
  },
  {
   "property": "C56",
   "status": "proved",
   "theorems": [
    "C56_same_report",
    "C56_filter_first"
   ],
   "note": ""
  },
  {
   "property": "C57",
   "status": "proved",
   "theorems": [
    "C57_info"
   ],
   "note": ""
  },
  {
   "property": "C58",
   "status": "proved",
   "theorems": [
    "C58_empty",
    "C58_again_in_memory",
    "C58_again_in_files"
   ],
   "note": ""
  },
  {
   "property": "C59",
   "status": "partial",
   "theorems": [
    "C59_groundtruths_partial",
    "C59_predictions_partial",
    "C59_prediction_by_groundtruth_refuted",
    "C59_groundtruth_by_prediction_refuted"
   ],
   "note": "Proved when the other kind of annotation does not use the field; refuted otherwise in both directions."
  },
  {
   "property": "C60",
   "status": "partial",
   "theorems": [
    "C60_disjoint_partial",
    "C60_other_arrays",
    "C60_unshared",
    "C60_shared_array_refuted",
    "C60_same_array_twice_refuted"
   ],
   "note": "False of the code for overlapping masks (refuted with shared arrays); proved for disjoint masks and for other arrays."
  },
  {
   "property": "C61",
   "status": "partial",
   "theorems": [
    "C61_finalize_only_partial",
    "C61_added_data_refuted"
   ],
   "note": "File-backed evaluators read the directory at each call: refuted after adding data, proved when the loader is only finalized again. A memory-backed evaluator holds an immutable table."
  },
  {
   "property": "C62",
   "status": "partial",
   "theorems": [
    "C62_with_labels_partial",
    "C62_unfiltered",
    "C62_without_labels_refuted"
   ],
   "note": "Unfiltered caches proved; filtered caches need the label map passed to load (proved); without it computing metrics raises KeyError (refuted)."
  },
  {
   "property": "C63",
   "status": "proved",
   "theorems": [
    "C63_bias",
    "C63_toxicity",
    "C63_faithfulness",
    "C63_answer_relevance",
    "C63_context_relevance",
    "C63_hallucination",
    "C63_context_recall",
    "C63_summary_coherence"
   ],
   "note": ""
  },
  {
   "property": "C64",
   "status": "proved",
   "theorems": [
    "C64_answer_correctness",
    "C64_perfect"
   ],
   "note": ""
  },
  {
   "property": "C65",
   "status": "partial",
   "theorems": [
    "C65_all_metrics_partial",
    "C65_types",
    "C65_empty_context_refuted"
   ],
   "note": "Exact result proved; compute_all always raises for a response without retrieved contexts (refuted)."
  },
  {
   "property": "C66",
   "status": "proved",
   "theorems": [
    "C66_calls_of_a_metric",
    "C66_calls_of_compute_all"
   ],
   "note": ""
  },
  {
   "property": "C67",
   "status": "proved",
   "theorems": [
    "C67_bleu",
    "C67_bleu_nonnegative",
    "C67_rouge",
    "C67_rouge_distinct"
   ],
   "note": ""
  },
  {
   "property": "C68",
   "status": "proved",
   "theorems": [
    "C68_client_needed",
    "C68_context_needed",
    "C68_seed_without_retries"
   ],
   "note": ""
  },
  {
   "property": "C69",
   "status": "proved",
   "theorems": [
    "C69_stateless_client",
    "C69_compute_all_agrees"
   ],
   "note": ""
  },
  {
   "property": "C70",
   "status": "proved",
   "theorems": [
    "C70_messages",
    "C70_own_messages_pass",
    "C70_openai_tokens",
    "C70_openai_answers",
    "C70_mistral_answers"
   ],
   "note": ""
  },
  {
   "property": "C71",
   "status": "proved",
   "theorems": [
    "C71_perfect_ranking",
    "C71_better_order",
    "C71_all_useful_refuted"
   ],
   "note": "Also refuted: that a score of 1 means all contexts are useful."
  },
  {
   "property": "C72",
   "status": "partial",
   "theorems": [
    "C72_load_built",
    "C72_load_filtered_partial",
    "C72_counts_defined",
    "C72_load_filtered_refuted"
   ],
   "note": "Built caches: proved. Filtered caches: proved when the labels are passed to load; without them the labels are lost and computing metrics raises IndexError (refuted)."
  },
  {
   "property": "C73",
   "status": "proved",
   "theorems": [
    "C73_same_metrics",
    "C73_filter_or_select",
    "C73_order"
   ],
   "note": ""
  },
  {
   "property": "C74",
   "status": "partial",
   "theorems": [
    "C74_label_metrics",
    "C74_absent_labels",
    "C74_map_partial",
    "C74_mar_partial",
    "C74_map_refuted"
   ],
   "note": "All per-label metrics proved equal, absent labels are all zero; mAP and mAR still average over the labels before filtering (refuted), proved equal after rescaling."
  },
  {
   "property": "C75",
   "status": "partial",
   "theorems": [
    "C75_counts_partial",
    "C75_unfiltered_partial",
    "C75_blank_datum_refuted"
   ],
   "note": "Ground truths and predictions exact; a datum without annotations is not counted (refuted), exact count of the others proved."
  },
  {
   "property": "C76",
   "status": "proved",
   "theorems": [
    "C76_recall_thresholds",
    "C76_zero_or_positive",
    "C76_without_groundtruths",
    "C76_first",
    "C76_shape",
    "C76_same_scores"
   ],
   "note": "Recall bins with exact rationals; the effect of binary rounding of the bins is C48."
  },
  {
   "property": "C77",
   "status": "partial",
   "theorems": [
    "C77_upper_bound_partial",
    "C77_attained_partial",
    "C77_operating_point_refuted",
    "C77_ties_refuted"
   ],
   "note": "Best precision over thresholds: upper bound proved for all data, attained when the scores of the label are distinct, not always otherwise (C77_ties_refuted); the listed score is not the threshold that reaches it (refuted)."
  },
  {
   "property": "C78",
   "status": "proved",
   "theorems": [
    "C78_filtered_counts",
    "C78_filtered_confusion",
    "C78_filtered_accuracy",
    "C78_labels_stay"
   ],
   "note": ""
  },
  {
   "property": "C79",
   "status": "partial",
   "theorems": [
    "C79_reduced_counts_partial",
    "C79_reduced_confusion_partial",
    "C79_reduced_accuracy_partial",
    "C79_absent_labels",
    "C79_hardmax_refuted"
   ],
   "note": "Proved without hardmax, and with hardmax when the winners of the remaining datums remain; otherwise the runner-up is not promoted (refuted)."
  },
  {
   "property": "C80",
   "status": "partial",
   "theorems": [
    "C80_load_built",
    "C80_load_filtered_partial",
    "C80_label_counts",
    "C80_load_filtered_refuted"
   ],
   "note": "Built caches: proved. Filtered caches: proved when the labels are passed to load; without them compute_rocauc raises IndexError (refuted)."
  },
  {
   "property": "C81",
   "status": "proved",
   "theorems": [
    "C81_info",
    "C81_filter_memory",
    "C81_filter_files"
   ],
   "note": ""
  },
  {
   "property": "C82",
   "status": "partial",
   "theorems": [
    "C82_reduced_rocauc",
    "C82_filtered_mann_whitney",
    "C82_absent_labels",
    "C82_mean_partial",
    "C82_mean_refuted",
    "C82_filtered_value_partial",
    "C82_above_one_refuted"
   ],
   "note": "Equality with the kept data proved per label; Mann-Whitney and [0,1] proved when the remaining datums of the label keep the candidate of their ground truth, otherwise the exact value is given and can exceed 1 (refuted); the mean still averages over labels filtered out (refuted), proved equal after rescaling. Conditions on files as in C22."
  },
  {
   "property": "C83",
   "status": "proved",
   "theorems": [
    "C83_metrics",
    "C83_listed_once",
    "C83_ranges",
    "C83_rocauc",
    "C83_confusion"
   ],
   "note": "All lists and dictionaries of the three compute functions, for general (filtered) evaluators."
  },
  {
   "property": "C84",
   "status": "proved",
   "theorems": [
    "C84_metrics",
    "C84_confusion",
    "C84_info",
    "C84_rocauc",
    "C84_mean_rocauc"
   ],
   "note": "Two evaluators over permuted data; ROCAUC under the safe_curve condition, see C22 for the cut curves."
  },
  {
   "property": "C85",
   "status": "proved",
   "theorems": [
    "C85_counts",
    "C85_accuracy",
    "C85_confusion",
    "C85_info"
   ],
   "note": "Three evaluators over two data sets and their concatenation."
  },
  {
   "property": "C86",
   "status": "proved",
   "theorems": [
    "C86_labels",
    "C86_groundtruths",
    "C86_metrics",
    "C86_report",
    "C86_average_recall",
    "C86_mean_average_recall",
    "C86_confusion",
    "C86_examples"
   ],
   "note": "Two evaluators over permuted images; IoU thresholds above 0."
  },
  {
   "property": "C87",
   "status": "partial",
   "theorems": [
    "C87_average_precision_partial",
    "C87_pr_curve_partial",
    "C87_mean_average_precision_partial",
    "C87_mean_over_ious_partial",
    "C87_order_matters_refuted"
   ],
   "note": "Proved when no score is given to the same label in two selected images; refuted for a hit and a duplicate with equal scores in two images."
  },
  {
   "property": "C88",
   "status": "proved",
   "theorems": [
    "C88_labels",
    "C88_groundtruths",
    "C88_true_positives",
    "C88_false_positives",
    "C88_false_negatives",
    "C88_confusion",
    "C88_missed",
    "C88_unmatched"
   ],
   "note": "Three evaluators over two data sets and their concatenation; FN and confusion cells need fewer than 2^31 annotations per image."
  },
  {
   "property": "C89",
   "status": "proved",
   "theorems": [
    "C89_reports"
   ],
   "note": "Two evaluators over permuted data showing the same view."
  },
  {
   "property": "C90",
   "status": "partial",
   "theorems": [
    "C90_order_partial",
    "C90_parts_partial",
    "C90_rows_refuted",
    "C90_rows_of_parts_refuted"
   ],
   "note": "Proved for labels, datums and pixels; refuted for the number of rows."
  },
  {
   "property": "C91",
   "status": "proved",
   "theorems": [
    "C91_parts"
   ],
   "note": "Three evaluators over two data sets and their concatenation."
  },
  {
   "property": "C92",
   "status": "proved",
   "theorems": [
    "C92_drawn",
    "C92_outlines",
    "C92_same_builder"
   ],
   "note": "Exact rational geometry and an arbitrary monotone rounding of the quotient; shapely's areas are arguments with the true values as hypothesis."
  },
  {
   "property": "C93",
   "status": "proved",
   "theorems": [
    "C93_move",
    "C93_pixels",
    "C93_same_builder"
   ],
   "note": "Exact rational geometry; all masks of an image are rearranged by the same permutation, background may be added."
  },
  {
   "property": "C94",
   "status": "partial",
   "theorems": [
    "C94_scale_partial",
    "C94_same_builder_partial",
    "C94_scale_refuted"
   ],
   "note": "Proved for boxes whose area is at least 1e-9 before and after scaling; refuted for smaller ones."
  },
  {
   "property": "C95",
   "status": "proved",
   "theorems": [
    "C95_call",
    "C95_go_on",
    "C95_returning"
   ],
   "note": "numpy's stacking error for arrays of different shapes is part of the trusted base."
  },
  {
   "property": "C96",
   "status": "proved",
   "theorems": [
    "C96_accepted_boxes",
    "C96_accepted_masks",
    "C96_accepted_polygons",
    "C96_mask_self",
    "C96_box_input",
    "C96_mask_input",
    "C96_calls",
    "C96_box_iou",
    "C96_box_disjoint",
    "C96_mask_iou"
   ],
   "note": "Boxes and masks; the areas of polygons come from shapely."
  },
  {
   "property": "C97",
   "status": "partial",
   "theorems": [
    "C97_distinct_messages_partial",
    "C97_kinds",
    "C97_precision_refuted",
    "C97_coherence_refuted"
   ],
   "note": "Proved for all requests but context precision with a query, and summary coherence with a text, of more than one line; refuted for those two."
  },
  {
   "property": "C98",
   "status": "proved",
   "theorems": [
    "C98_sections",
    "C98_lists_readable"
   ],
   "note": "The literal text of the templates is part of the model; repr follows CPython's unicode_repr for any table of printable characters."
  },
  {
   "property": "C99",
   "status": "proved",
   "theorems": [
    "C99_messages",
    "C99_all_messages"
   ],
   "note": "For any json.loads that returns Python strings."
  },
  {
   "property": "C100",
   "status": "proved",
   "theorems": [
    "C100_inputs"
   ],
   "note": "Equality of the whole run: outcome, messages, client state."
  },
  {
   "property": "C101",
   "status": "proved",
   "theorems": [
    "C101_page",
    "C101_pages",
    "C101_refused"
   ],
   "note": "Labels are compared by number with np.isclose, hence fewer than 100000 labels; thresholds as in C20: a label counts as predicted at threshold k when its score passes the first k+1 thresholds, which is just the k-th for ascending lists."
  },
  {
   "property": "C102",
   "status": "proved",
   "theorems": [
    "C102_matrix",
    "C102_labels",
    "C102_storage"
   ],
   "note": "Equality of the whole dictionary, for any number of labels; thresholds as in C101."
  },
  {
   "property": "C103",
   "status": "proved",
   "theorems": [
    "C103_in_turn",
    "C103_only_one",
    "C103_labels",
    "C103_matrix",
    "C103_refused"
   ],
   "note": "Equality of the whole report. The matching is shown to be the only one taken in turn. Scores and overlaps as in C10: compared only."
  },
  {
   "property": "C104",
   "status": "proved",
   "theorems": [
    "C104_page",
    "C104_pages",
    "C104_refused"
   ],
   "note": "Labels are compared by number with np.isclose, hence fewer than 100000 labels. A prediction with several labels is listed once per wrong label (C104_repeated)."
  },
  {
   "property": "C105",
   "status": "proved",
   "theorems": [
    "C105_matrix",
    "C105_counts",
    "C105_storage"
   ],
   "note": "Equality of the whole dictionary, for any number of labels."
  },
  {
   "property": "C106",
   "status": "partial",
   "theorems": [
    "C106_report",
    "C106_rocauc",
    "C106_matrices",
    "C106_examples",
    "C106_matrices_with_examples",
    "C106_told_apart_partial",
    "C106_told_apart_refuted"
   ],
   "note": "Documents are exact for all inputs. Told apart by type and parameters: the metrics report always, matrices unless a threshold is repeated; then it is false (C106_told_apart_refuted)."
  },
  {
   "property": "C107",
   "status": "proved",
   "theorems": [
    "C107_report",
    "C107_matrices",
    "C107_examples",
    "C107_matrices_with_examples"
   ],
   "note": "The values of the metrics report are the report functions of the model (proved about in C31-C36, C50, C76, C86); those of matrices and examples are stated on the input."
  },
  {
   "property": "C108",
   "status": "proved",
   "theorems": [
    "C108_report"
   ],
   "note": "Equality up to the representation of rational numbers."
  },
  {
   "property": "C109",
   "status": "partial",
   "theorems": [
    "C109_snapshot",
    "C109_copy",
    "C109_sharing",
    "C109_calls",
    "C109_inside",
    "C109_change_partial",
    "C109_change_refuted"
   ],
   "note": "Snapshots and separate objects for all reports; false for the threshold lists the caller passes to object detection (C109_change_refuted)."
  },
  {
   "property": "C110",
   "status": "partial",
   "theorems": [
    "C110_classification",
    "C110_detection_partial",
    "C110_detection_refuted",
    "C110_detection_examples",
    "C110_segmentation"
   ],
   "note": "All reports but object detection examples with true positives, where it is false (C110_detection_refuted)."
  },
  {
   "property": "C111",
   "status": "partial",
   "theorems": [
    "C111_defaults_partial",
    "C111_defaults_refuted",
    "C111_value",
    "C111_shown_partial",
    "C111_shown_refuted",
    "C111_kept",
    "C111_reach"
   ],
   "note": "False when the weights list of a metric is changed in place (C111_defaults_refuted, C111_shown_refuted)."
  },
  {
   "property": "C112",
   "status": "proved",
   "theorems": [
    "C112_classification",
    "C112_detection",
    "C112_segmentation",
    "C112_range",
    "C112_order"
   ],
   "note": "Binary64 with unbounded exponent; numpy's operations are correctly rounded (trusted)."
  },
  {
   "property": "C113",
   "status": "partial",
   "theorems": [
    "C113_average_precision_partial",
    "C113_detection_averages_partial",
    "C113_refuted"
   ],
   "note": "All but 'between the smallest and largest value', which is false (C113_refuted)."
  },
  {
   "property": "C114",
   "status": "partial",
   "theorems": [
    "C114_rocauc_partial",
    "C114_pairs_partial",
    "C114_mean_partial",
    "C114_perfect_refuted",
    "C114_above_one_refuted"
   ],
   "note": "The error bounds; false that the value is at most 1 and 1 for a perfect ranking (C114_above_one_refuted, C114_perfect_refuted)."
  },
  {
   "property": "C115",
   "status": "proved",
   "theorems": [
    "C115_scores",
    "C115_compute_all",
    "C115_ranges",
    "C115_order",
    "C115_versions"
   ],
   "note": "Binary64 with unbounded exponent; int/int correctly rounded and CPython's sum() trusted. C115_versions: the two versions of sum() do give different scores."
  },
  {
   "property": "C116",
   "status": "partial",
   "theorems": [
    "C116_guided",
    "C116_compute_all",
    "C116_told_apart_partial",
    "C116_told_apart_refuted"
   ],
   "note": "All but telling the documents of errors apart, which is false (C116_told_apart_refuted). Class name and message of errors are arguments."
  },
  {
   "property": "C117",
   "status": "proved",
   "theorems": [
    "C117_range",
    "C117_symmetric",
    "C117_disjoint",
    "C117_overlap",
    "C117_self",
    "C117_close",
    "C117_negligible",
    "C117_grid",
    "C117_grid_threshold",
    "C117_masks",
    "C117_drawn",
    "C117_input",
    "C117_tables"
   ],
   "note": "Binary64 with unbounded exponent; numpy's operations are correctly rounded (trusted)."
  },
  {
   "property": "C118",
   "status": "partial",
   "theorems": [
    "C118_threshold_partial",
    "C118_move_partial",
    "C118_scale_partial",
    "C118_one_partial",
    "C118_scale_refuted",
    "C118_threshold_refuted",
    "C118_move_refuted",
    "C118_one_refuted"
   ],
   "note": "True up to 17 half ulps around the threshold, for moves between double coordinates and for powers of two; the claims themselves are false (C118_threshold_refuted, C118_move_refuted, C118_scale_refuted, C118_one_refuted)."
  },
  {
   "property": "C119",
   "status": "partial",
   "theorems": [
    "C119_rows_partial",
    "C119_rows_refuted",
    "C119_tables_partial",
    "C119_writes_stay",
    "C119_others_partial",
    "C119_others_refuted",
    "C119_delete_partial",
    "C119_delete_refuted",
    "C119_sort_partial",
    "C119_count_refuted",
    "C119_files",
    "C119_delete_reach",
    "C119_sort_reach",
    "C119_class",
    "C119_range",
    "C119_own_files_refuted",
    "C119_delete_missing"
   ],
   "note": "False for paths with brackets (rows are lost, delete fails for good: C119_rows_refuted, C119_delete_refuted) and for paths with * or ? next to a matching cache (C119_others_refuted, C119_count_refuted)."
  },
  {
   "property": "C120",
   "status": "partial",
   "theorems": [
    "C120_counts",
    "C120_few_partial",
    "C120_refuted",
    "C120_crowd"
   ],
   "note": "False with 100002 labels or more: labels whose numbers differ by 1e-5 of the number are taken for equal, so a wrong prediction is a true positive (C120_refuted, C120_crowd). C120_counts gives the exact counts."
  },
  {
   "property": "C121",
   "status": "proved",
   "theorems": [
    "C121_counts",
    "C121_matrix",
    "C121_label_refuted"
   ],
   "note": "Leaving out a single low-scored label of a prediction with other labels can change the counts (C121_label_refuted)."
  },
  {
   "property": "C122",
   "status": "proved",
   "theorems": [
    "C122_predictions",
    "C122_groundtruths_refuted",
    "C122_average_recall"
   ],
   "note": "Added ground truths can lower the true positives (C122_groundtruths_refuted)."
  },
  {
   "property": "C123",
   "status": "partial",
   "theorems": [
    "C123_written",
    "C123_filter",
    "C123_groundtruths_partial",
    "C123_predictions_partial",
    "C123_datums_partial",
    "C123_groundtruths",
    "C123_predictions",
    "C123_groundtruths_refuted",
    "C123_predictions_refuted",
    "C123_datums_refuted"
   ],
   "note": "What is missing: fields that ground truths and predictions (or datums and annotations) both use. There the claim is false: the prediction's value hides the ground truth's in the rows of overlapping pairs, and a ground truth is kept if any of its rows satisfies the condition (C123_groundtruths_refuted, C123_predictions_refuted, C123_datums_refuted). C123_groundtruths and C123_predictions say exactly what is kept."
  },
  {
   "property": "C124",
   "status": "proved",
   "theorems": [
    "C124_written",
    "C124_filter",
    "C124_selected",
    "C124_metrics"
   ],
   "note": "Counts (hence precision, recall, F1), confusion matrix, accuracy and ROCAUC; labels that only occur in dropped datums stay listed with zeros (C79_absent_labels)."
  },
  {
   "property": "C125",
   "status": "partial",
   "theorems": [
    "C125_counts_partial",
    "C125_average_recall_partial",
    "C125_average_precision_partial",
    "C125_average_precision_refuted",
    "C125_several_labels_refuted"
   ],
   "note": "Proved for predictions with one label; average precision when the scores of the label are distinct. C125_average_precision_refuted: with equal scores a prediction is ranked by its overlap with a ground truth of another label. C125_several_labels_refuted: labels of one prediction influence each other."
  },
  {
   "property": "C126",
   "status": "proved",
   "theorems": [
    "C126_counts",
    "C126_average_precision",
    "C126_mean_average_precision",
    "C126_matrix"
   ],
   "note": "For all strictly increasing replacements of the scores, with ties and several labels per prediction; the matrix with its examples through C105."
  },
  {
   "property": "C127",
   "status": "proved",
   "theorems": [
    "C127_metrics",
    "C127_confusion",
    "C127_rocauc",
    "C127_mean_rocauc",
    "C127_zero_matters"
   ],
   "note": "C127_metrics, C127_confusion, C127_rocauc, C127_mean_rocauc: end to end over evaluators with views; C127_zero_matters shows why zero has to stay zero (a label whose scores are all 0 has ROC AUC 0, raised by a constant 1/2)."
  },
  {
   "property": "C128",
   "status": "partial",
   "theorems": [
    "C128_object",
    "C128_silent",
    "C128_count",
    "C128_shared_partial",
    "C128_no_others",
    "C128_shared_refuted"
   ],
   "note": "Proved: when a warning is given; that it counts exactly the pixels taken out of some mask, all of which lie in two masks, among them every pixel shared by a mask that overlaps no earlier one and a later mask. C128_shared_refuted: a pixel of the second and third mask is not counted if the second overlaps the first."
  },
  {
   "property": "C129",
   "status": "partial",
   "theorems": [
    "C129_tables",
    "C129_arrays_partial",
    "C129_both_partial",
    "C129_storage",
    "C129_counts",
    "C129_optional_refuted",
    "C129_large_refuted"
   ],
   "note": "Tables exact; arrays exact for integers up to 2^53 or columns that are all integers. C129_large_refuted: next to a float column larger integers are rounded, so different ids become equal. C129_optional_refuted: iterate_tables_with_arrays without numeric columns raises on every cache in memory, although they are documented as optional."
  },
  {
   "property": "C130",
   "status": "proved",
   "theorems": [
    "C130_average_precision",
    "C130_misses",
    "C130_mean",
    "C130_equal_refuted",
    "C130_new_label_refuted"
   ],
   "note": "With an equal score average precision can fall (C130_equal_refuted); a new label lowers the mean (C130_new_label_refuted)."
  },
  {
   "property": "C131",
   "status": "proved",
   "theorems": [
    "C131_arrays",
    "C131_arrays_float",
    "C131_filtered",
    "C131_no_thresholds",
    "C131_confusion",
    "C131_confusion_no_thresholds",
    "C131_metrics_float",
    "C131_metrics"
   ],
   "note": "numpy's argsort is an arbitrary order by descending precision. After a second finalize the same computation raises an IndexError (C53_raises_refuted). C131_metrics covers the whole call including the unpacking into metric lists, with exact recall indices; C131_metrics_float does so with the indices that binary64 recalls give. C131_confusion does the same for compute_confusion_matrix."
  },
  {
   "property": "C132",
   "status": "proved",
   "theorems": [
    "C132_metrics",
    "C132_confusion",
    "C132_rocauc",
    "C132_curve",
    "C132_unlabelled"
   ],
   "note": "Thresholds are non-empty (without thresholds the functions raise a ValueError). C132_unlabelled: when a filtered cache can be loaded without its labels."
  },
  {
   "property": "C133",
   "status": "partial",
   "theorems": [
    "C133_det_exact",
    "C133_det_confusion_refuted",
    "C133_det_float",
    "C133_det_works_partial",
    "C133_det_needs",
    "C133_det_labels",
    "C133_det_loads_refuted",
    "C133_seg_exact",
    "C133_seg_loads_refuted",
    "C133_seg_works_partial",
    "C133_seg_needs",
    "C133_seg_same_mean_refuted"
   ],
   "note": "The natural claim that a filtered cache can always be loaded without its labels is false (C133_det_loads_refuted, C133_seg_loads_refuted, C72_load_filtered_refuted); the theorems give the exact condition. For segmentation the mean IoU changes (C133_seg_same_mean_refuted)."
  },
  {
   "property": "C134",
   "status": "proved",
   "theorems": [
    "C134_adding",
    "C134_metrics",
    "C134_any_labels"
   ],
   "note": ""
  },
  {
   "property": "C135",
   "status": "proved",
   "theorems": [
    "C135_det_examples",
    "C135_det_matrix",
    "C135_det_cells",
    "C135_cls_examples",
    "C135_cls_matrix"
   ],
   "note": ""
  },
  {
   "property": "C136",
   "status": "proved",
   "theorems": [
    "C136_any_order",
    "C136_in_one_call",
    "C136_condition_needed"
   ],
   "note": "Any chain of filters; the ROC AUC part has the condition of C82 on the origin of the stored curves. The condition on the groundtruths expression is needed (C136_condition_needed)."
  },
  {
   "property": "C137",
   "status": "proved",
   "theorems": [
    "C137_det_any_order",
    "C137_det_in_one_call",
    "C137_det_raises",
    "C137_seg_any_order",
    "C137_seg_in_one_call"
   ],
   "note": ""
  },
  {
   "property": "C138",
   "status": "proved",
   "theorems": [
    "C138_cls_metrics",
    "C138_cls_confusion",
    "C138_cls_rocauc",
    "C138_cls_info",
    "C138_cls_examples",
    "C138_cls_matrix",
    "C138_cls_merging_matters",
    "C138_det_report",
    "C138_det_mean_average_precision",
    "C138_det_mean_average_recall",
    "C138_det_matrix",
    "C138_det_examples",
    "C138_seg_report",
    "C138_seg_info"
   ],
   "note": ""
  },
  {
   "property": "C139",
   "status": "partial",
   "theorems": [
    "C139_positives",
    "C139_accuracy",
    "C139_hardmax_positives",
    "C139_hardmax_accuracy",
    "C139_false_negatives_partial",
    "C139_recall_partial",
    "C139_confusion_partial",
    "C139_recall_without_hardmax_refuted",
    "C139_recall_uncovered_refuted",
    "C139_confusion_refuted"
   ],
   "note": "Positives, true negatives and accuracy: proved in general. False negatives and recall: proved with hardmax when every ground truth is a candidate (truths_seen); refuted without hardmax and for uncovered ground truths. Confusion matrix: proved for ascending thresholds; refuted for a request that lists a higher threshold first (C20)."
  },
  {
   "property": "C140",
   "status": "proved",
   "theorems": [
    "C140_cls_metrics",
    "C140_cls_confusion",
    "C140_cls_info",
    "C140_cls_rocauc",
    "C140_det_counts",
    "C140_det_ratios",
    "C140_det_matrix",
    "C140_seg_reports",
    "C140_seg_info"
   ],
   "note": ""
  },
  {
   "property": "C141",
   "status": "proved",
   "theorems": [
    "C141_reports",
    "C141_info"
   ],
   "note": ""
  },
  {
   "property": "C142",
   "status": "proved",
   "theorems": [
    "C142_cls",
    "C142_det_recall",
    "C142_det_precision",
    "C142_seg"
   ],
   "note": ""
  },
  {
   "property": "C143",
   "status": "proved",
   "theorems": [
    "C143_cls",
    "C143_det",
    "C143_seg"
   ],
   "note": ""
  },
  {
   "property": "C144",
   "status": "proved",
   "theorems": [
    "C144_rocauc"
   ],
   "note": ""
  },
  {
   "property": "C145",
   "status": "proved",
   "theorems": [
    "C145_relations"
   ],
   "note": ""
  },
  {
   "property": "C146",
   "status": "proved",
   "theorems": [
    "C146_cls",
    "C146_det"
   ],
   "note": ""
  },
  {
   "property": "C147",
   "status": "proved",
   "theorems": [
    "C147_average_precision"
   ],
   "note": ""
  },
  {
   "property": "C148",
   "status": "proved",
   "theorems": [
    "C148_mean_average_precision",
    "C148_label_averages",
    "C148_mean_average_recall",
    "C148_no_ground_truths",
    "C148_mean_rocauc",
    "C148_mean_iou"
   ],
   "note": ""
  }
 ]
}