{
 "C02": [
  "proved",
  "Multiset property for all histories; order under the side condition stated in the property; the unconditional order claim is refuted as a finding."
 ],
 "C06": [
  "proved",
  "File-backed sink, record batches assumed non-empty (parquet readers); the empty-batch behaviour is a separate finding."
 ],
 "C08": [
  "partial",
  "False of the code for a multi-file source and a memory sink (refuted with witness); proved for the remaining combinations (C06 for file sinks, C08_memory_to_memory_partial)."
 ],
 "C11": [
  "proved",
  "For configurations with non-zero batch_size/rows_per_file and non-empty compression; two findings are recorded as _refuted theorems."
 ],
 "C12": [
  "partial",
  "False of the code in the window without a complete .cfg file (refuted with witnesses); all other crash points proved recoverable."
 ],
 "C15": [
  "proved",
  "Exact counts for any data with distinct candidates, hardmax and not; the four-outcome reading for complete predictions is C15_counts_hardmax_complete."
 ],
 "C16": [
  "partial",
  "False of the code in general: refuted for a ground truth outside the candidates and for hardmax=False; proved with hardmax (exact characterisation, and the full equation when every ground truth is a candidate)."
 ],
 "C17": [
  "proved",
  "Accuracy bound for hardmax; refuted for hardmax=False with repeated candidates."
 ],
 "C20": [
  "partial",
  "False of the code for lists that are not ascending (refuted); proved for ascending lists, C19_confusion_entries gives the general meaning."
 ],
 "C21": [
  "proved",
  "Conditions on zero scores and on ground truths being candidates are necessary: C21_zero_scores_refuted, C21_uncovered_refuted."
 ],
 "C22": [
  "partial",
  "False of the code when a file isolates the origin and a positive and a negative share the highest score (refuted); proved for all other splits and data."
 ],
 "C23": [
  "partial",
  "Protocol proved on both back ends; isolation of a file-backed evaluator from later add_data calls is refuted."
 ],
 "C24": [
  null,
  "Classification and object detection; segmentation filters are C40."
 ],
 "C25": [
  "partial",
  "Formula, symmetry, range, disjoint boxes and converse proved; IoU 1 for identical boxes only for area >= 1e-9 (refuted below)."
 ],
 "C27": [
  "partial",
  "False of the code for a prediction with several labels, of which only the matching ones are counted (refuted); exact count proved."
 ],
 "C28": [
  "proved",
  "Positive IoU thresholds; at threshold 0 nothing is a true positive (refuted). C28_ties covers exact IoU ties: the first listed ground truth is picked."
 ],
 "C33": [
  null,
  "The matching is a function of the image alone."
 ],
 "C34": [
  "partial",
  "Proved for sets of existing ids, the only use in the code; refuted for sets that contain absent ids."
 ],
 "C35": [
  "partial",
  "Columns proved; rows proved for single-label predictions and refuted otherwise; agreement of the diagonal with the precision-recall TP refuted."
 ],
 "C36": [
  "proved",
  "Ground truths with one label, as documented; refuted for a ground truth given several scored labels."
 ],
 "C37": [
  "proved",
  "Masks with distinct labels, as stated; two masks with the same label on one side lose pixels (refuted)."
 ],
 "C38": [
  "partial",
  "False of the code for three or more masks with a chain of overlaps (refuted, with a stored count of 2^64-1 as a consequence); proved for masks disjoint from all earlier ones; masks only shrink and their union is kept."
 ],
 "C39": [
  "proved",
  "Values are exact rationals; total number of pixels below 2^64."
 ],
 "C40": [
  "proved",
  "Pixel conservation for arbitrary expressions; exact reports for expressions on datum fields, labels and fields of the annotation's own kind (see C59)."
 ],
 "C41": [
  "partial",
  "Proved for retry counts >= 0; with a negative count no attempt is made and None is returned (refuted)."
 ],
 "C42": [
  "partial",
  "Range proved for every returned metric; exceptions characterised: context recall divides by zero on an empty statement list, hallucination raises without contexts (refuted), see also C44, C45."
 ],
 "C44": [
  "partial",
  "Exact acceptance proved; the type of analysis is not checked and an unhashable verdict raises TypeError (both refuted)."
 ],
 "C45": [
  "partial",
  "Braces proved; integers proved up to the digit limit of int(), beyond it ValueError (refuted)."
 ],
 "C47": [
  "proved",
  "Classification and detection; an example may list a multi-label prediction as both TP and FP (refuted disjointness)."
 ],
 "C48": [
  "partial",
  "False at recall 0.29, 0.57 and 0.58 (refuted, also through the whole evaluator); proved everywhere else, with the resulting AP at most 1/101 lower and equal unless the label has a multiple of 50 ground truths."
 ],
 "C50": [
  "partial",
  "False of the code for a proper datum filter (refuted); proved: correct selected datums over all datums."
 ],
 "C53": [
  "partial",
  "False of the code: ranked rows are written again (refuted, in memory and in files; compute_precision_recall can then raise an IndexError); detailed rows and labels unchanged."
 ],
 "C59": [
  "partial",
  "Proved when the other kind of annotation does not use the field; refuted otherwise in both directions."
 ],
 "C60": [
  "partial",
  "False of the code for overlapping masks (refuted with shared arrays); proved for disjoint masks and for other arrays."
 ],
 "C61": [
  "partial",
  "File-backed evaluators read the directory at each call: refuted after adding data, proved when the loader is only finalized again. A memory-backed evaluator holds an immutable table."
 ],
 "C62": [
  "partial",
  "Unfiltered caches proved; filtered caches need the label map passed to load (proved); without it computing metrics raises KeyError (refuted)."
 ],
 "C65": [
  "partial",
  "Exact result proved; compute_all always raises for a response without retrieved contexts (refuted)."
 ],
 "C71": [
  null,
  "Also refuted: that a score of 1 means all contexts are useful."
 ],
 "C72": [
  "partial",
  "Built caches: proved. Filtered caches: proved when the labels are passed to load; without them the labels are lost and computing metrics raises IndexError (refuted)."
 ],
 "C74": [
  "partial",
  "All per-label metrics proved equal, absent labels are all zero; mAP and mAR still average over the labels before filtering (refuted), proved equal after rescaling."
 ],
 "C75": [
  "partial",
  "Ground truths and predictions exact; a datum without annotations is not counted (refuted), exact count of the others proved."
 ],
 "C76": [
  null,
  "Recall bins with exact rationals; the effect of binary rounding of the bins is C48."
 ],
 "C77": [
  "partial",
  "Best precision over thresholds: upper bound proved for all data, attained when the scores of the label are distinct, not always otherwise (C77_ties_refuted); the listed score is not the threshold that reaches it (refuted)."
 ],
 "C79": [
  "partial",
  "Proved without hardmax, and with hardmax when the winners of the remaining datums remain; otherwise the runner-up is not promoted (refuted)."
 ],
 "C80": [
  "partial",
  "Built caches: proved. Filtered caches: proved when the labels are passed to load; without them compute_rocauc raises IndexError (refuted)."
 ],
 "C82": [
  "partial",
  "Equality with the kept data proved per label; Mann-Whitney and [0,1] proved when the remaining datums of the label keep the candidate of their ground truth, otherwise the exact value is given and can exceed 1 (refuted); the mean still averages over labels filtered out (refuted), proved equal after rescaling. Conditions on files as in C22."
 ],
 "C83": [
  null,
  "All lists and dictionaries of the three compute functions, for general (filtered) evaluators."
 ],
 "C84": [
  null,
  "Two evaluators over permuted data; ROCAUC under the safe_curve condition, see C22 for the cut curves."
 ],
 "C85": [
  null,
  "Three evaluators over two data sets and their concatenation."
 ],
 "C86": [
  null,
  "Two evaluators over permuted images; IoU thresholds above 0."
 ],
 "C87": [
  "partial",
  "Proved when no score is given to the same label in two selected images; refuted for a hit and a duplicate with equal scores in two images."
 ],
 "C88": [
  null,
  "Three evaluators over two data sets and their concatenation; FN and confusion cells need fewer than 2^31 annotations per image."
 ],
 "C89": [
  null,
  "Two evaluators over permuted data showing the same view."
 ],
 "C90": [
  "partial",
  "Proved for labels, datums and pixels; refuted for the number of rows."
 ],
 "C91": [
  null,
  "Three evaluators over two data sets and their concatenation."
 ],
 "C92": [
  null,
  "Exact rational geometry and an arbitrary monotone rounding of the quotient; shapely's areas are arguments with the true values as hypothesis."
 ],
 "C93": [
  null,
  "Exact rational geometry; all masks of an image are rearranged by the same permutation, background may be added."
 ],
 "C94": [
  "partial",
  "Proved for boxes whose area is at least 1e-9 before and after scaling; refuted for smaller ones."
 ],
 "C95": [
  null,
  "numpy's stacking error for arrays of different shapes is part of the trusted base."
 ],
 "C96": [
  null,
  "Boxes and masks; the areas of polygons come from shapely."
 ],
 "C97": [
  "partial",
  "Proved for all requests but context precision with a query, and summary coherence with a text, of more than one line; refuted for those two."
 ],
 "C98": [
  null,
  "The literal text of the templates is part of the model; repr follows CPython's unicode_repr for any table of printable characters."
 ],
 "C99": [
  null,
  "For any json.loads that returns Python strings."
 ],
 "C100": [
  null,
  "Equality of the whole run: outcome, messages, client state."
 ],
 "C101": [
  null,
  "Labels are compared by number with np.isclose, hence fewer than 100000 labels; thresholds as in C20: a label counts as predicted at threshold k when its score passes the first k+1 thresholds, which is just the k-th for ascending lists."
 ],
 "C102": [
  null,
  "Equality of the whole dictionary, for any number of labels; thresholds as in C101."
 ],
 "C103": [
  null,
  "Equality of the whole report. The matching is shown to be the only one taken in turn. Scores and overlaps as in C10: compared only."
 ],
 "C104": [
  null,
  "Labels are compared by number with np.isclose, hence fewer than 100000 labels. A prediction with several labels is listed once per wrong label (C104_repeated)."
 ],
 "C105": [
  null,
  "Equality of the whole dictionary, for any number of labels."
 ],
 "C106": [
  "partial",
  "Documents are exact for all inputs. Told apart by type and parameters: the metrics report always, matrices unless a threshold is repeated; then it is false (C106_told_apart_refuted)."
 ],
 "C107": [
  null,
  "The values of the metrics report are the report functions of the model (proved about in C31-C36, C50, C76, C86); those of matrices and examples are stated on the input."
 ],
 "C108": [
  null,
  "Equality up to the representation of rational numbers."
 ],
 "C109": [
  "partial",
  "Snapshots and separate objects for all reports; false for the threshold lists the caller passes to object detection (C109_change_refuted)."
 ],
 "C110": [
  "partial",
  "All reports but object detection examples with true positives, where it is false (C110_detection_refuted)."
 ],
 "C111": [
  "partial",
  "False when the weights list of a metric is changed in place (C111_defaults_refuted, C111_shown_refuted)."
 ],
 "C112": [
  null,
  "Binary64 with unbounded exponent; numpy's operations are correctly rounded (trusted)."
 ],
 "C113": [
  "partial",
  "All but 'between the smallest and largest value', which is false (C113_refuted)."
 ],
 "C114": [
  "partial",
  "The error bounds; false that the value is at most 1 and 1 for a perfect ranking (C114_above_one_refuted, C114_perfect_refuted)."
 ],
 "C115": [
  null,
  "Binary64 with unbounded exponent; int/int correctly rounded and CPython's sum() trusted. C115_versions: the two versions of sum() do give different scores."
 ],
 "C116": [
  "partial",
  "All but telling the documents of errors apart, which is false (C116_told_apart_refuted). Class name and message of errors are arguments."
 ],
 "C117": [
  null,
  "Binary64 with unbounded exponent; numpy's operations are correctly rounded (trusted)."
 ],
 "C118": [
  "partial",
  "True up to 17 half ulps around the threshold, for moves between double coordinates and for powers of two; the claims themselves are false (C118_threshold_refuted, C118_move_refuted, C118_scale_refuted, C118_one_refuted)."
 ],
 "C119": [
  "partial",
  "False for paths with brackets (rows are lost, delete fails for good: C119_rows_refuted, C119_delete_refuted) and for paths with * or ? next to a matching cache (C119_others_refuted, C119_count_refuted)."
 ],
 "C120": [
  "partial",
  "False with 100002 labels or more: labels whose numbers differ by 1e-5 of the number are taken for equal, so a wrong prediction is a true positive (C120_refuted, C120_crowd). C120_counts gives the exact counts."
 ],
 "C32": [
  null,
  "C32_ties covers exact IoU ties."
 ],
 "C121": [
  "proved",
  "Leaving out a single low-scored label of a prediction with other labels can change the counts (C121_label_refuted)."
 ],
 "C122": [
  "proved",
  "Added ground truths can lower the true positives (C122_groundtruths_refuted)."
 ],
 "C123": [
  "partial",
  "What is missing: fields that ground truths and predictions (or datums and annotations) both use. There the claim is false: the prediction's value hides the ground truth's in the rows of overlapping pairs, and a ground truth is kept if any of its rows satisfies the condition (C123_groundtruths_refuted, C123_predictions_refuted, C123_datums_refuted). C123_groundtruths and C123_predictions say exactly what is kept."
 ],
 "C124": [
  "proved",
  "Counts (hence precision, recall, F1), confusion matrix, accuracy and ROCAUC; labels that only occur in dropped datums stay listed with zeros (C79_absent_labels)."
 ],
 "C125": [
  "partial",
  "Proved for predictions with one label; average precision when the scores of the label are distinct. C125_average_precision_refuted: with equal scores a prediction is ranked by its overlap with a ground truth of another label. C125_several_labels_refuted: labels of one prediction influence each other."
 ],
 "C126": [
  null,
  "For all strictly increasing replacements of the scores, with ties and several labels per prediction; the matrix with its examples through C105."
 ],
 "C127": [
  null,
  "C127_metrics, C127_confusion, C127_rocauc, C127_mean_rocauc: end to end over evaluators with views; C127_zero_matters shows why zero has to stay zero (a label whose scores are all 0 has ROC AUC 0, raised by a constant 1/2)."
 ],
 "C128": [
  "partial",
  "Proved: when a warning is given; that it counts exactly the pixels taken out of some mask, all of which lie in two masks, among them every pixel shared by a mask that overlaps no earlier one and a later mask. C128_shared_refuted: a pixel of the second and third mask is not counted if the second overlaps the first."
 ],
 "C129": [
  "partial",
  "Tables exact; arrays exact for integers up to 2^53 or columns that are all integers. C129_large_refuted: next to a float column larger integers are rounded, so different ids become equal. C129_optional_refuted: iterate_tables_with_arrays without numeric columns raises on every cache in memory, although they are documented as optional."
 ],
 "C130": [
  "proved",
  "With an equal score average precision can fall (C130_equal_refuted); a new label lowers the mean (C130_new_label_refuted)."
 ],
 "C131": [
  "proved",
  "numpy's argsort is an arbitrary order by descending precision. After a second finalize the same computation raises an IndexError (C53_raises_refuted). C131_metrics covers the whole call including the unpacking into metric lists, with exact recall indices; C131_metrics_float does so with the indices that binary64 recalls give. C131_confusion does the same for compute_confusion_matrix."
 ],
 "C132": [
  "proved",
  "Thresholds are non-empty (without thresholds the functions raise a ValueError). C132_unlabelled: when a filtered cache can be loaded without its labels."
 ],
 "C133": [
  "partial",
  "The natural claim that a filtered cache can always be loaded without its labels is false (C133_det_loads_refuted, C133_seg_loads_refuted, C72_load_filtered_refuted); the theorems give the exact condition. For segmentation the mean IoU changes (C133_seg_same_mean_refuted)."
 ],
 "C136": [
  null,
  "Any chain of filters; the ROC AUC part has the condition of C82 on the origin of the stored curves. The condition on the groundtruths expression is needed (C136_condition_needed)."
 ],
 "C139": [
  "partial",
  "Positives, true negatives and accuracy: proved in general. False negatives and recall: proved with hardmax when every ground truth is a candidate (truths_seen); refuted without hardmax and for uncovered ground truths. Confusion matrix: proved for ascending thresholds; refuted for a request that lists a higher threshold first (C20)."
 ]
}