#!/usr/bin/env python3
"""Regenerates /verif/properties.jsonl (one JSON object per line)."""
import json, os
P = []
def p(id, title, statement, quantifier, why, anchors):
    P.append(dict(id=id, title=title, statement=statement, quantifier=quantifier,
                  why_tests_cant=why, anchors=anchors))
C = "src/valor_lite/cache/"
K = "src/valor_lite/classification/"
O = "src/valor_lite/object_detection/"
S = "src/valor_lite/semantic_segmentation/"
T = "src/valor_lite/text_generation/"

p("C01", "File cache keeps every row in write order",
  "After any sequence of write_rows / write_batch / write_table / flush calls on a file cache, the reader returned by to_reader iterates over exactly the rows that were written, each exactly once, in the order in which they were written.",
  "every sequence of write operations, every batch content and size, every batch_size and rows_per_file",
  "Loss or duplication depends on how the buffer level, the running file count and the flush points line up; the space of operation sequences is unbounded.",
  [C+"persistent.py:FileCacheWriter.write_rows", C+"persistent.py:FileCacheWriter.write_batch", C+"persistent.py:FileCacheWriter.write_table", C+"persistent.py:FileCacheWriter.flush", C+"persistent.py:FileCacheReader.iterate_tables"])
p("C02", "Memory cache never loses or invents a row",
  "After any sequence of writes, an in-memory cache contains exactly the multiset of rows written; and, when no table is written directly while batches are still buffered, in the order written.",
  "every sequence of write operations and every batch_size",
  "Needs all interleavings of buffered and direct writes; the ordering claim fails only for particular interleavings.",
  [C+"ephemeral.py:MemoryCacheWriter.write_batch", C+"ephemeral.py:MemoryCacheWriter.write_table", C+"ephemeral.py:MemoryCacheWriter.flush"])
p("C03", "Rows written together stay in one fragment",
  "All rows handed to one write_rows (or write_batch) call end up in a single file of the file cache, contiguous and in order, so a datum whose rows are written in one call never straddles two files.",
  "every history of writes, batch_size and rows_per_file",
  "All per-file algorithms (ranking, pair matching, pagination) silently assume it; a straddling datum shows up only at particular buffer levels.",
  [C+"persistent.py:FileCacheWriter.write_batch", C+"persistent.py:FileCacheWriter.flush", K+"loader.py:Loader.add_data", O+"loader.py:Loader._add_data"])
p("C04", "File size bound",
  "A file produced through batched writes of at most m rows each holds at most (rows_per_file-1)+(batch_size-1)+m rows, all files but the last hold at least rows_per_file rows, and unflushed memory is always below batch_size rows.",
  "every history of batched writes, batch_size and rows_per_file",
  "Is an invariant over all histories; an example only samples one size pattern.",
  [C+"persistent.py:FileCacheWriter.write_batch"])
p("C05", "Read order is the numeric order of file indices, whatever the directory listing order",
  "The reader's iteration order does not depend on the order in which the file system lists the files, new files always receive a strictly larger index than all existing ones, and the decimal file name round-trips to its index, also beyond 999999.",
  "every directory listing permutation and every set of existing indices",
  "The listing order is chosen by the operating system, and the million-file boundary is not reachable in a test.",
  [C+"persistent.py:FileCacheReader.iterate_ordered_fragments", C+"persistent.py:FileCacheWriter._generate_next_filename"])
p("C06", "External sort yields the stable sort of all rows",
  "sort(source, sink, batch_size, sorting) writes to the sink a permutation of the source rows which is ordered by the sorting keys and in which rows with equal keys keep their source order.",
  "every source content, fragmentation into files, read batch size, list of sort keys and directions",
  "k-way merges go wrong only for particular key/fragment/batch coincidences.",
  [C+"compute.py:sort", C+"compute.py:_merge"])
p("C07", "External sort does not depend on how the rows are split",
  "Two sources holding the same rows in the same order, split into files and read batches in different ways (including a single in-memory table), are sorted to the same row sequence.",
  "every pair of fragmentations, read batch sizes and sort keys",
  "Relational property over two unbounded executions.",
  [C+"compute.py:sort", C+"compute.py:_merge"])
p("C08", "Sorting works for every combination of source and sink kind",
  "sort gives sorted output whether source and sink are memory- or file-backed.",
  "every source/sink kind combination and every content",
  "The intermediate store used depends on the sink kind while the merge needs one run per source fragment; no unit test mixes kinds.",
  [C+"compute.py:sort", C+"compute.py:_merge", C+"ephemeral.py:MemoryCacheReader.iterate_fragment_batch_iterators"])
p("C09", "Pagination returns exactly the requested datums",
  "For fragment-aligned keys, paginate_index(offset, limit) yields exactly the rows whose key has rank r (fragment by fragment, keys ascending inside a fragment) with offset <= r < offset+limit; a limit of None or 0 means no limit.",
  "every cache content, fragmentation, filter, offset and limit",
  "Off-by-one at fragment boundaries arises for particular (offset, limit, fragmentation) triples only.",
  [C+"compute.py:paginate_index"])
p("C10", "Pages partition the data",
  "Concatenating the pages (0,n), (n,n), (2n,n), ... reproduces every row exactly once, in order of fragments.",
  "every cache content, fragmentation and page size",
  "Needs all page boundaries at once.",
  [C+"compute.py:paginate_index"])
p("C11", "Cache life cycle: create, load, delete",
  "create on a fresh path succeeds and can be loaded back with the same configuration; create on an existing path fails unless delete_if_exists; delete removes the cache entirely and is idempotent; operations on one path do not affect another.",
  "every file-system state and every sequence of create/load/delete/write operations",
  "State machine over arbitrary directory states.",
  [C+"persistent.py:FileCacheWriter.create", C+"persistent.py:FileCacheWriter.delete", C+"persistent.py:FileCacheReader.load"])
p("C12", "Cache life cycle survives crashes",
  "After a crash at any point inside create or delete, create(path, delete_if_exists=True) succeeds.",
  "every crash point of create and delete",
  "Crash points between two system calls cannot be hit by unit tests.",
  [C+"persistent.py:FileCacheWriter.create", C+"persistent.py:FileCacheWriter.delete"])
p("C13", "Label indices form a dense bijection that is recovered from the rows",
  "A loader assigns indices 0,1,2,... to labels in order of first appearance, never maps two labels to one index, never changes an assignment, and the label map extracted from the stored rows equals the loader's map.",
  "every sequence of added datums, labels repeated arbitrarily",
  "The map extracted from the cache is rebuilt from per-file unique rows; equality must hold for all data and all file splits.",
  [K+"loader.py:Loader._add_label", O+"loader.py:Loader._add_label", K+"shared.py:extract_labels", O+"shared.py:extract_labels", S+"shared.py:extract_labels"])
p("C14", "Classification loader writes one row per candidate label with one winner",
  "For each datum the loader stores exactly one row per predicted label carrying that label's score, exactly one of which is marked winner, namely the first one with maximal score, and match is set exactly when predicted and ground-truth labels are equal.",
  "every ground truth, every non-empty list of predicted labels and scores",
  "Tie-breaking and completeness over all score vectors.",
  [K+"loader.py:Loader.add_data"])
p("C15", "Classification counts mean what they say",
  "With hardmax, for complete predictions, the reported TP(l), FP(l), FN(l), TN(l) at score threshold s equal the number of datums of the corresponding kind as defined on the input (winning label with score >= s and above the zero tolerance).",
  "every data set, score threshold, label",
  "Semantic counting identity between vectorised masks/uniques and a per-datum definition for all inputs.",
  [K+"computation.py:compute_counts", K+"evaluator.py:Evaluator.compute_precision_recall"])
p("C16", "Every ground truth is counted once: TP + FN = number of ground truths",
  "For every label and threshold TP + FN equals the number of datums with that ground-truth label.",
  "every data set, threshold, hardmax setting",
  "Fails only for labels that are never predicted or for multi-positive predictions.",
  [K+"computation.py:compute_counts"])
p("C17", "Classification metrics are well defined and lie in [0,1]",
  "Precision, recall, F1 and accuracy are defined (no division by zero) and lie between 0 and 1 for every label and threshold; F1 lies between min and max of precision and recall.",
  "every data set, label, threshold",
  "Range claims over all inputs.",
  [K+"computation.py:compute_precision", K+"computation.py:compute_recall", K+"computation.py:compute_f1_score", K+"computation.py:compute_accuracy"])
p("C18", "Classification results do not depend on how the cache is split into files",
  "Counts, and confusion matrices are the same for any datum-aligned split of the same rows into files.",
  "every data set and every datum-aligned fragmentation",
  "Relational over all fragmentations.",
  [K+"evaluator.py:Evaluator.compute_precision_recall", K+"evaluator.py:Evaluator.compute_confusion_matrix", K+"computation.py:compute_counts"])
p("C19", "Classification confusion matrix accounts for every ground truth",
  "With hardmax, for the confusion matrix at each threshold: for every ground-truth label the row sum plus the unmatched ground truths equals the number of ground truths with that label.",
  "every data set, every list of thresholds",
  "Conservation law over all inputs.",
  [K+"computation.py:compute_pair_classifications", K+"computation.py:compute_confusion_matrix"])
p("C20", "Confusion matrix at a threshold does not depend on the other requested thresholds",
  "The confusion matrix (and examples) reported for threshold s is the one obtained when asking for s alone.",
  "every data set, every list of thresholds in every order",
  "The mask is accumulated across loop iterations; only non-ascending lists reveal it.",
  [K+"computation.py:compute_pair_classifications"])
p("C21", "ROC AUC is the probability that a positive outranks a negative",
  "If every ground truth is among the candidates and the highest score given to the label is not exactly 0, the reported ROCAUC of a label equals (#concordant pairs + 1/2 #tied pairs)/(#positives * #negatives) and hence lies in [0,1].",
  "every data set with distinct candidates, at least one positive and one negative for the label, in memory or in any curve split that does not isolate the origin",
  "Identity between a trapezoid sum over a compressed curve and a pair count, for all inputs.",
  [K+"evaluator.py:Builder._create_rocauc_intermediate", K+"computation.py:compute_rocauc"])
p("C22", "ROC AUC does not depend on how the curve is split into files",
  "The reported ROCAUC is the same for every split of the stored curve into files.",
  "every curve and every split",
  "Only a split right after a curve point at the origin shows the difference.",
  [K+"computation.py:compute_rocauc"])
p("C23", "Loader/evaluator protocol",
  "finalize succeeds at most once per loader, an empty loader cannot be finalized, and an evaluator sees exactly the data added before finalize.",
  "every sequence of add_data / finalize calls",
  "History property.",
  [K+"evaluator.py:Builder.finalize", O+"evaluator.py:Builder.finalize", S+"evaluator.py:Builder.finalize"])
p("C24", "Filtering keeps exactly what was asked for",
  "Evaluator.filter keeps exactly the selected datums, and inside them exactly the selected ground truths and predictions; everything else disappears, nothing new appears.",
  "every data set and every combination of datum / ground-truth / prediction filters",
  "Filter expressions are arbitrary predicates.",
  [K+"evaluator.py:Evaluator.filter", O+"evaluator.py:Evaluator.filter"])
p("C25", "Bounding-box IoU is a similarity in [0,1]",
  "IoU is symmetric, lies in [0,1], is 1 for identical boxes of positive area, 0 for boxes with disjoint interiors, and equals area(intersection)/area(union).",
  "every pair of axis-aligned boxes",
  "Geometric identity over all coordinates.",
  [O+"computation.py:compute_bbox_iou"])
p("C26", "Bitmask IoU is |intersection| / |union|",
  "For every pair of masks of equal shape the reported IoU is the number of common pixels over the number of pixels in either mask, symmetric and in [0,1], 0 when both are empty.",
  "every pair of masks of every size",
  "Universal identity over all masks.",
  [O+"computation.py:compute_bitmask_iou"])
p("C27", "Each prediction enters the detection counts at most once per label",
  "TP + FP of a label is the number of predictions carrying that label with a sufficient score; for the count each prediction is paired with the ground truth of that label it overlaps most, if it overlaps any.",
  "every data set, evaluator of it, datum filter and threshold pair",
  "Depends on tie-breaking and duplicates in all tables.",
  [O+"computation.py:rank_pairs"])
p("C28", "One true positive per ground truth",
  "At every positive IoU threshold TP of a label is the number of its ground truths that some prediction of the label with a sufficient score detects (sufficient overlap, and no other ground truth of the label overlapped more); in particular it never exceeds the number of ground truths.",
  "every data set, evaluator of it, datum filter and threshold pair",
  "The code replaces a per-threshold matching by a single boundary per row; equivalence needs all thresholds.",
  [O+"computation.py:calculate_ranking_boundaries", O+"computation.py:compute_counts"])
p("C29", "Detection counts are conserved",
  "TP + FN equals the number of ground truths of the label, FN is never negative, and for single-label predictions TP + FP equals the number of predictions of the label with a sufficient score.",
  "every data set, evaluator of it, datum filter and threshold pair",
  "Conservation over all inputs.",
  [O+"computation.py:compute_counts", O+"evaluator.py:Evaluator.compute_precision_recall"])
p("C30", "Detection counts are monotone in the thresholds",
  "Raising the IoU threshold or the score threshold never increases TP; raising the score threshold never increases TP+FP.",
  "every data set, evaluator of it, datum filter and pairs of thresholds",
  "Relational property.",
  [O+"computation.py:compute_counts"])
p("C31", "Detection counts, precision-recall curve and AP do not depend on storage",
  "Two evaluators of the same data, in memory or in files, with any batch and file sizes and any grouping of the add_data calls, report the same label numbering, counts, precision-recall curves, AP and mAP.",
  "every data set, every pair of evaluators of it, datum filter and thresholds",
  "Relational over all splits.",
  [O+"computation.py:compute_counts", O+"evaluator.py:Evaluator.compute_precision_recall"])
p("C32", "AP is the 101-point interpolated average precision",
  "AP of a label at an IoU threshold is the mean over r=0,0.01,...,1 of the maximum precision attained at recall >= r along the predictions of the label in descending score order, where a prediction is correct if it is the first to claim its ground truth; the precision-recall curve lists these maxima.",
  "every data set, evaluator of it, datum filter and positive IoU threshold",
  "Equality of a binned running maximum with the textbook definition for all tables.",
  [O+"computation.py:compute_counts", O+"computation.py:compute_average_precision", O+"computation.py:compute_average_recall"])
p("C33", "The confusion matrix uses one one-to-one best-first matching per image",
  "For each image there is one matching of predictions with ground truths - one-to-one, made of overlapping pairs, every overlapping pair either taken or blocked by one that is not worse - such that every cell of the confusion matrix and every example list at every threshold pair is determined by it; it is unique when competing pairs do not tie.",
  "every data set, evaluator of it, datum filter and threshold pair",
  "Matching invariants over all pair lists.",
  [O+"computation.py:mask_pairs_greedily"])
p("C34", "Membership test on pairs of annotation ids is exact",
  "Testing whether a (ground truth, prediction) pair belongs to a set of pairs through packed 64-bit integers gives the same answer as set membership, also when one side of the tested pair is absent.",
  "every set of pairs and every tested pair of ids below 2^31 or absent",
  "Packing collisions occur only outside a range.",
  [O+"computation.py:_isin"])
p("C35", "Detection confusion matrix accounts for every prediction and ground truth",
  "For each threshold pair: column sum plus unmatched predictions equals the number of predictions with that label and score at least the threshold; row sum plus unmatched ground truths equals the number of ground truths with that label.",
  "every pair table and every thresholds pair",
  "Conservation law over all inputs, fails only for multi-label predictions.",
  [O+"computation.py:compute_pair_classifications", O+"computation.py:compute_confusion_matrix"])
p("C36", "The detection loader records every ground truth and prediction",
  "Every ground truth, every (prediction, label, score) and every overlapping pair with its IoU appears in a stored row, no row mentions anything else, and the labels of the evaluator are exactly the labels of the data; any data with at least one annotation can be evaluated.",
  "every data set, every back end, batch size, file size and grouping of calls",
  "Three-way branch on empty ground truths / predictions and overlap structure, for all inputs.",
  [O+"loader.py:Loader._add_data"])
p("C37", "Segmentation pixel conservation",
  "For disjoint masks with distinct labels the counts stored for a datum sum to the number of pixels of the image, and each count is the number of pixels with that (ground-truth label, predicted label) pair.",
  "every image size and every family of masks",
  "Inclusion-exclusion arithmetic for all masks.",
  [S+"computation.py:compute_intermediates", S+"loader.py:Loader.add_data"])
p("C38", "Mask validation makes masks disjoint",
  "After constructing a Segmentation no pixel belongs to two ground-truth masks or to two prediction masks.",
  "every list of masks",
  "Fails only for three or more masks with a chain of overlaps.",
  [S+"annotation.py:Segmentation._validate_bitmasks"])
p("C39", "Segmentation metrics are what they claim",
  "Per-label precision, recall, F1, IoU and global accuracy equal their set-theoretic definitions on the pixels of the whole data set and lie in [0,1]; mIoU is the mean of the IoUs.",
  "every data set",
  "Universal identity.",
  [S+"computation.py:compute_metrics", S+"evaluator.py:Evaluator.compute_precision_recall_iou"])
p("C40", "Segmentation filtering preserves pixels",
  "Filtering by ground-truth or prediction predicates re-labels pixels as background but never changes the total number of pixels of the kept datums.",
  "every data set and all filters",
  "Universal over filter predicates.",
  [S+"evaluator.py:Evaluator.filter"])
p("C41", "LLM retries are bounded and stop at the first valid answer",
  "A guided metric makes at most 1+retries attempts, returns the result of the first attempt that does not raise an invalid-response error, returns an Error metric exactly when all attempts were invalid, and lets other exceptions through.",
  "every retry count and every sequence of responses",
  "Unbounded response histories.",
  [T+"manager.py:llm_guided_metric"])
p("C42", "LLM-guided scores are in [0,1]",
  "Every score computed from validated LLM responses is a defined number in [0,1] (1..5 for summary coherence).",
  "every response that passes validation, every number of statements and contexts",
  "The responses are adversarial free text.",
  [T+"computation.py", T+"llm/generation.py"])
p("C43", "Context precision is the mean of precision@k over relevant ranks",
  "With verdicts v1..vn, the score is the average of precision@k over the positions k of relevant contexts (0 if there is none); with several ground truths a context counts as relevant if it is relevant for any.",
  "every verdict sequence and number of ground truths",
  "Universal identity.",
  [T+"computation.py:calculate_context_precision"])
p("C44", "Validation accepts exactly the well-formed responses",
  "validate_statements / validate_verdicts raise exactly when the response is not of the documented shape; nothing malformed reaches the metric computations.",
  "every JSON value",
  "All JSON shapes.",
  [T+"llm/validators.py"])
p("C45", "JSON extraction takes the outermost braces and the first signed integer",
  "trim_and_load_json parses exactly the text from the first opening to the last closing brace; find_first_signed_integer returns the value of the first maximal signed digit string.",
  "every response text",
  "All strings.",
  [T+"llm/utilities.py"])
p("C46", "Metadata fields round-trip and never shadow reserved fields",
  "encode/decode of metadata fields is the identity for distinct names; a schema is rejected exactly when a metadata field has a reserved name.",
  "every list of metadata fields",
  "Universal over field lists.",
  [K+"shared.py:generate_schema", K+"shared.py:encode_metadata_fields"])
p("C47", "Examples agree with the confusion matrix",
  "The confusion matrix with examples has, in each cell, exactly one example per counted pair, and its counts equal those of the plain confusion matrix.",
  "every data set and threshold list",
  "Relational over two code paths for all inputs.",
  [K+"utilities.py:_unpack_confusion_matrix_with_examples", O+"utilities.py"])
p("C48", "Float recall binning places a recall of k/100 into bin k",
  "A recall that equals k/100 is counted as having reached recall level k/100.",
  "every true-positive count and ground-truth count",
  "Binary rounding error at isolated fractions.",
  [O+"computation.py:compute_counts"])
p("C49", "Ranked order is independent of storage",
  "The ranked rows of an evaluator are the same rows in the same order whether the data was held in memory or in files, for all batch and file sizes and groupings of calls.",
  "every data set and every pair of evaluators of it",
  "Relational; per-file ranking plus merge against global ranking.",
  [O+"evaluator.py:Builder._rank", O+"computation.py:rank_table", C+"compute.py:sort"])
p("C50", "Accuracy is the fraction of correctly classified datums",
  "Accuracy at a threshold is the number of correctly classified selected datums over the number of selected datums.",
  "every data set, every datum filter",
  "Only a proper datum filter reveals the denominator used.",
  [K+"evaluator.py:Evaluator.compute_precision_recall", K+"computation.py:compute_accuracy"])
p("C51", "In-place sorting of a cache",
  "sort_by on an in-memory cache leaves exactly its rows in stable sorted order; on a file cache it stably sorts each file separately and neither moves rows between files nor changes the file order.",
  "every write history, sort specification and directory listing order",
  "Universal over histories; pending buffered rows must be included.",
  [C+"ephemeral.py:MemoryCacheWriter.sort_by", C+"persistent.py:FileCacheWriter.sort_by"])
p("C52", "Per-datum examples list exactly the outcome of the datum",
  "compute_examples returns one entry per datum and threshold; the ground truth is listed as true positive exactly when it is predicted and as false negative otherwise; the false positives are exactly the other predicted labels, each once.",
  "every data set, list of thresholds, hardmax setting and datum-aligned fragmentation",
  "Universal over data sets, thresholds and file splits.",
  [K+"evaluator.py:Evaluator.compute_examples", K+"utilities.py:unpack_examples"])

p("C53", "Finalizing a detection loader twice does not change the reports",
  "Calling finalize again on the same loader gives an evaluator that reports the same as the first one.",
  "every data set, threshold pair and datum filter",
  "Only a second call on the same loader shows which rows are written again.",
  [O+"evaluator.py:Builder.finalize", O+"evaluator.py:Builder._rank"])
p("C54", "The detection confusion matrix does not depend on storage",
  "Two evaluators of the same data report the same confusion matrix, including when predictions tie.",
  "every data set, every pair of evaluators of it, datum filter and threshold pair",
  "Relational over storage layouts; ties are broken by row order, which differs between layouts.",
  [O+"evaluator.py:Evaluator.compute_confusion_matrix", O+"computation.py:mask_pairs_greedily", O+"computation.py:compute_pair_classifications"])
p("C55", "Detection reports are complete, and their values are in range",
  "A report has exactly one entry for every label of the data, score threshold and IoU threshold; precision, recall, F1, AP, mAP, AR, mAR and their averages over IoU thresholds lie in [0,1]; the precision-recall curve has 101 values, never increases, and its mean is AP.",
  "every data set, evaluator of it, datum filter and lists of thresholds",
  "Universal over data sets and threshold lists; division by zero and empty labels are corner cases.",
  [O+"evaluator.py:Evaluator.compute_precision_recall", O+"utilities.py:unpack_precision_recall_into_metric_lists", O+"computation.py:compute_average_precision"])

p("C56", "Segmentation reports do not depend on storage",
  "Two evaluators of the same data that keep the same datums and labels give identical reports, whether held in memory or in files, built in one or many calls, loaded or filtered; filtering datums first equals passing the datum filter to the metric.",
  "every data set, every pair of evaluators of it, every chain of filters",
  "Relational over storage layouts and call histories.",
  [S+"evaluator.py:Evaluator.compute_precision_recall_iou", S+"evaluator.py:Evaluator.filter", S+"evaluator.py:Builder.finalize"])
p("C57", "Segmentation info counts are exact",
  "get_info reports the number of labels, of selected datums, of their pixels, and of the pixels carrying a selected ground-truth and predicted label.",
  "every data set, evaluator and combination of filters",
  "Counts are summed over row tables whose split depends on the storage.",
  [S+"shared.py:extract_counts", S+"evaluator.py:Evaluator.get_info"])
p("C58", "Finalizing a segmentation loader",
  "finalize raises EmptyCacheError exactly if no datum was added; calling it again without adding data returns an equal evaluator.",
  "every sequence of add_data and finalize calls, in memory and in files",
  "Universal over call histories.",
  [S+"evaluator.py:Builder.finalize"])
p("C59", "Metadata filters select annotations by their own metadata",
  "Filtering ground truths (predictions) on a metadata field keeps exactly the pixels of ground truths (predictions) whose own metadata, or else the datum's, satisfy the condition.",
  "every data set and condition on a field",
  "Rows merge the metadata of datum, ground truth and prediction; only particular overlaps show it.",
  [S+"loader.py:Loader.add_data", S+"evaluator.py:Evaluator.filter"])
p("C60", "Constructing a Segmentation leaves the caller's arrays alone",
  "Constructing a Segmentation does not change the mask arrays passed to it, and the result does not depend on arrays being shared between masks.",
  "every list of masks and every sharing of arrays",
  "Aliasing between masks.",
  [S+"annotation.py:Segmentation._validate_bitmasks"])
p("C61", "A segmentation evaluator keeps its data",
  "An evaluator keeps reporting on the data it was made from, whatever is done with the loader afterwards.",
  "every sequence of later calls",
  "Needs histories that use a loader after an evaluator was made.",
  [S+"evaluator.py:Builder.finalize", S+"evaluator.py:Evaluator.load"])
p("C62", "A segmentation cache can be loaded again",
  "Loading the directory of an evaluator, filtered or not, gives an evaluator with the same reports.",
  "every data set, filter and directory listing order",
  "Label ids are rediscovered from the rows that are left.",
  [S+"evaluator.py:Evaluator.load", S+"shared.py:extract_labels"])

p("C63", "LLM-guided scores count the yes verdicts",
  "Bias, toxicity, faithfulness, answer relevance, context relevance and hallucination are the share of yes among the verdicts the LLM gave, one per item it was asked about; context recall is the best share over the ground truths; summary coherence is the first integer of the answer.",
  "every client, every response and number of items, with the exact questions asked",
  "Relates free-text exchanges of any length to the score.",
  [T+"computation.py", T+"llm/generation.py"])
p("C64", "Answer correctness is the best F1 over the ground truths",
  "The score is the greatest F1 of the TP/FP/FN lists over the ground truths (0 without any); TP and FP together must be as many as the predicted statements, FN at most as many as the ground truth's.",
  "every client, every list of ground truths",
  "Universal over responses.",
  [T+"computation.py:calculate_answer_correctness", T+"llm/generation.py:generate_answer_correctness_verdicts"])
p("C65", "compute_all returns all metrics",
  "compute_all returns, for each of the twelve metric types, what the single method returns.",
  "every response, client and evaluator",
  "Edge cases of contexts, and exceptions in the middle of a long conversation.",
  [T+"manager.py:Evaluator.compute_all"])
p("C66", "The number of LLM calls is bounded",
  "A metric makes at most 1+retries times a fixed number of calls, linear in the number of ground truths; compute_all at most (1+retries)(12+5g).",
  "every client (also one that always answers badly), retry count and number of ground truths",
  "Worst case over all conversations.",
  [T+"manager.py", T+"computation.py"])
p("C67", "BLEU and ROUGE post-processing",
  "BLEU is the library's value with values below 1e-9 and NaN replaced by 0; compute_rouge gives one metric per requested type with the library's value, not below 0.",
  "every library result, list of types and weights",
  "Universal over library results, including infinities and NaN.",
  [T+"computation.py:calculate_rouge_scores", T+"computation.py:calculate_sentence_bleu", T+"manager.py:Evaluator.compute_rouge"])
p("C68", "Misuse is refused before any LLM call",
  "Without a client, a model name or a needed context, a metric raises without calling the LLM; a seed together with retries is refused.",
  "every metric, evaluator and response",
  "Quantifies over all methods and states.",
  [T+"manager.py:llm_guided_metric", T+"manager.py:Evaluator.openai"])
p("C69", "Retrying a deterministic client changes nothing",
  "If the answers depend on the question only, the first attempt decides the result whatever the retry count, and compute_all reports what the single methods report.",
  "every deterministic client, metric and retry count",
  "Universal over clients.",
  [T+"manager.py:llm_guided_metric", T+"manager.py:Evaluator.compute_all"])
p("C70", "Client wrappers check messages, count tokens, refuse truncated answers",
  "Messages are accepted iff they are a list of dicts with string role and content; the evaluator's own always are; the OpenAI token totals are the sums of the usage of all calls; truncated or filtered answers are not returned.",
  "every JSON value, every conversation",
  "Unbounded conversations and arbitrary API answers.",
  [T+"llm/integrations.py"])
p("C71", "Context precision rewards order",
  "The score is 1 iff some context is relevant and none irrelevant precedes a relevant one; moving a relevant context up past an irrelevant one raises it.",
  "every list of contexts and verdicts",
  "Universal over rankings.",
  [T+"computation.py:calculate_context_precision"])

p("C72", "A detection cache can be loaded again",
  "Evaluator.load on the directory of a finalized loader or of a filtered evaluator gives back the same evaluator, whatever the order in which the directory is listed.",
  "every data set, batch and file size, filter and listing order",
  "The on-disk states are unbounded.",
  [O+"evaluator.py:Evaluator.load", O+"shared.py:extract_labels", O+"shared.py:extract_groundtruth_count_per_label"])
p("C73", "Detection filters compose",
  "Filters commute and combine: evaluators that leave the same part of the data report the same metrics, whether the parts were removed at once, one after the other, in another order, or at the metric call.",
  "every data set, every sequence of filters, both back ends",
  "Quantifies over sequences of arbitrary predicates.",
  [O+"evaluator.py:Evaluator.filter"])
p("C74", "A filtered detection evaluator reports like one built from the kept data",
  "Every metric of a filtered evaluator equals the metric of an evaluator built from the data reduced to the kept ground truths and predictions.",
  "every data set (equal overlaps and scores included), every sequence of filters, every selection, threshold and label",
  "Relates two executions over arbitrary data and predicates.",
  [O+"evaluator.py:Evaluator.filter", O+"evaluator.py:Evaluator.compute_precision_recall"])
p("C75", "Detection info counts the kept data",
  "get_info reports the numbers of datums, ground truths and predictions of the (filtered, selected) data, each counted once.",
  "every data set, sequence of filters and selection",
  "Distinct counts over unbounded tables.",
  [O+"evaluator.py:Evaluator.get_info", O+"shared.py:extract_counts"])

p("C76", "Scores of the precision-recall curve are recall thresholds",
  "The score listed at recall level k/100 (k >= 1) of a label's precision-recall curve is the largest score threshold at which the reported recall is at least k/100, and 0 if none is; the first entry is the best score of the label; the list has 101 entries, does not increase and does not depend on storage or batching.",
  "every data set, selection, label, IoU threshold, level and score threshold",
  "Relates two independently computed metrics over unbounded rankings.",
  [O+"computation.py:compute_counts", O+"computation.py:compute_average_precision", O+"utilities.py:unpack_precision_recall_into_metric_lists", O+"metric.py:Metric.precision_recall_curve"])
p("C77", "Points of the precision-recall curve are operating points",
  "The precision listed at recall level k/100 is the best precision over all score thresholds with recall at least k/100, and it is reached at the score listed with it.",
  "every data set, selection, label, IoU threshold, level and score threshold",
  "Maximum over an unbounded set of thresholds.",
  [O+"computation.py:compute_counts", O+"computation.py:compute_average_precision", O+"metric.py:Metric.precision_recall_curve"])

p("C78", "A filtered classification evaluator reports on what remains",
  "After any sequence of filters, counts, confusion matrices and accuracy are those of the remaining candidates of the remaining datums, where the winner of a datum is that of the unfiltered input; the label numbering never changes.",
  "every data set with distinct candidates, every sequence of filters on both back ends, every selection, threshold list and label",
  "Quantifies over sequences of arbitrary predicates and two storage back ends.",
  [K+"evaluator.py:Evaluator.filter", K+"evaluator.py:Evaluator.compute_precision_recall", K+"evaluator.py:Evaluator.compute_confusion_matrix", K+"shared.py:extract_labels"])
p("C79", "A filtered classification evaluator reports like one built from the kept data",
  "Counts, confusion matrices and accuracy of a filtered evaluator equal those of an evaluator built from the input without the filtered candidates; labels of which nothing is left report zeros.",
  "every data set with distinct candidates, every sequence of filters, threshold list and label",
  "Relates two executions over arbitrary data and predicates.",
  [K+"evaluator.py:Evaluator.filter", K+"evaluator.py:Evaluator.compute_precision_recall", K+"evaluator.py:Evaluator.compute_confusion_matrix"])
p("C80", "Loading a stored classification evaluator gives it back",
  "Evaluator.load on the path of a file based evaluator, built or filtered, yields an evaluator with the same rows, curve and labels, in whatever order the directory lists its files; its labels can always be counted.",
  "every data set, batch size, file size, filter and listing order",
  "Directory listing order is not controlled by tests.",
  [K+"evaluator.py:Evaluator.load", K+"evaluator.py:Evaluator.filter", K+"shared.py:extract_labels", K+"shared.py:extract_groundtruth_count_per_label"])
p("C81", "Classification info and empty filters",
  "get_info reports the number of remaining candidates, the number of labels of the original input and the number of datums with a remaining selected candidate; filter raises EmptyCacheError exactly when no candidate remains.",
  "every data set with distinct candidates, every sequence of filters on both back ends, every selection",
  "Distinct counts over unbounded tables; arbitrary predicates.",
  [K+"evaluator.py:Evaluator.get_info", K+"evaluator.py:Evaluator.filter", K+"shared.py:extract_counts"])
p("C82", "ROCAUC of a filtered classification evaluator",
  "The ROCAUC of a label after filtering is the Mann-Whitney statistic of its remaining candidates, equals that of an evaluator built from the kept data and lies in [0,1]; a label of which nothing is left reports 0; the mean is that of the kept data.",
  "every data set with distinct candidates, every sequence of filters on both back ends, every label",
  "Relates two executions over arbitrary data and predicates, and an area to a pair count.",
  [K+"evaluator.py:Evaluator.filter", K+"evaluator.py:Evaluator.compute_rocauc", K+"computation.py:compute_rocauc"])

p("C83", "Classification reports list every label and threshold once",
  "compute_precision_recall returns one accuracy per score threshold in the given order and, for every label of the input and every threshold, exactly one Counts, Precision, Recall and F1 entry, whose values are those of the counts of the data; precision, recall and F1 lie in [0,1], as does the accuracy with hardmax; compute_confusion_matrix returns one matrix per threshold with an entry for every pair of labels; compute_rocauc lists every label once; empty threshold lists raise ValueError.",
  "every data set with distinct candidates, every sequence of filters on both back ends, every list of thresholds, every datum expression",
  "The label map is recovered from the cache in an order that depends on batching; any mismatch between array axes and label numbers shows only for some orders.",
  [K+"utilities.py:unpack_precision_recall", K+"utilities.py:unpack_rocauc", K+"utilities.py:unpack_confusion_matrix", K+"evaluator.py:Evaluator.compute_precision_recall", K+"evaluator.py:Evaluator.compute_confusion_matrix", K+"evaluator.py:Evaluator.compute_rocauc"])
p("C84", "Classification reports do not depend on the order of the data or the storage",
  "Two evaluators holding the same datums, added in different orders, with different batching and different back ends, report the same metrics, confusion matrices and info, label by label; ROCAUC and its mean agree whenever no curve is cut right behind its origin (in particular in memory) or its best score is not shared by a match and a mismatch.",
  "every pair of orders of every data set, every batching, both back ends, every filter, threshold list and datum expression",
  "All permutations and all splits into batches and files.",
  [K+"evaluator.py:Evaluator.compute_precision_recall", K+"evaluator.py:Evaluator.compute_confusion_matrix", K+"evaluator.py:Evaluator.compute_rocauc", K+"evaluator.py:Evaluator.get_info", K+"loader.py:Loader.add_data"])
p("C85", "Classification reports of parts add up",
  "The counts, confusion matrix entries, unmatched ground truths, number of rows and number of datums reported for the union of two data sets are the sums of those reported for the parts (0 for a label a part does not have), and its accuracy is the average of theirs weighted by the number of datums.",
  "every two data sets and their concatenation, every filter, both back ends, every threshold",
  "Relates three evaluators with different label numberings.",
  [K+"evaluator.py:Evaluator.compute_precision_recall", K+"evaluator.py:Evaluator.compute_confusion_matrix", K+"evaluator.py:Evaluator.get_info"])

p("C86", "Object detection reports do not depend on the order of the images or the storage",
  "Two evaluators holding the same images, added in different orders, with different batching and different back ends, know the same labels and report, label by label, the same ground-truth counts, TP, FP, FN, precision, recall, F1, average recall and its mean, the same list of counts up to order, the same confusion matrix and the same examples of every image.",
  "every pair of orders of every data set with distinct images, every batching, both back ends, every threshold list and datum selection",
  "All permutations and all splits into batches and files; label numbers and tie-breaks depend on the order.",
  [O+"evaluator.py:Evaluator.compute_precision_recall", O+"evaluator.py:Evaluator.compute_confusion_matrix", O+"evaluator.py:Evaluator.compute_examples", O+"computation.py:rank_pairs", O+"computation.py:compute_counts"])
p("C87", "Average precision does not depend on the order of the images",
  "AP, mAP, their averages over IoU thresholds and the precision-recall curve are the same for two evaluators holding the same images in different orders, provided no score is given to the same label in two images; with shared scores the image added first is ranked first and AP changes.",
  "every pair of orders of every data set, every batching, both back ends, every IoU threshold",
  "The dependence on insertion order appears only for particular ties.",
  [O+"computation.py:compute_average_precision", O+"computation.py:compute_counts", O+"evaluator.py:Evaluator.compute_precision_recall"])
p("C88", "Object detection reports of parts add up",
  "The ground-truth counts, TP, FP, FN, confusion matrix cells, unmatched ground truths and unmatched predictions reported for the union of two data sets are the sums of those reported for the parts (0 for a label a part does not have), and the union knows exactly the labels of the parts.",
  "every two data sets and their concatenation, every batching, both back ends, every threshold and datum selection",
  "Relates three evaluators with different label numberings over arbitrary data.",
  [O+"evaluator.py:Evaluator.compute_precision_recall", O+"evaluator.py:Evaluator.compute_confusion_matrix", O+"computation.py:compute_counts", O+"computation.py:compute_confusion_matrix"])

p("C89", "Segmentation reports do not depend on the order of the data or the storage",
  "Two evaluators showing the same view of the same datums, added in different orders and obtained in different ways (memory, files, loaded, filtered), report the same accuracy and mean IoU and, label by label and cell by cell, the same precision, recall, F1, IoU, unmatched ratios and confusion matrix; only the order of the lists may differ.",
  "every pair of orders of every data set with disjoint masks, every batching, both back ends, every datum expression",
  "All permutations and all splits into batches and files; label numbers depend on the order.",
  [S+"evaluator.py:Evaluator.compute_precision_recall_iou", S+"loader.py:Loader.add_data", S+"loader.py:Loader.add_data"])
p("C90", "Segmentation info does not depend on the order and adds up over parts",
  "get_info reports the same numbers of labels, datums, pixels, ground-truth pixels and predicted pixels for every order of the data, and for the union of two data sets the sums of those of the parts; the number of stored rows has neither property, because an image also gets rows for the labels of earlier images.",
  "every data set with disjoint masks, every split and order, every filter and expression",
  "Relates several executions over arbitrary data.",
  [S+"evaluator.py:Evaluator.get_info", S+"shared.py:extract_counts", S+"loader.py:Loader.add_data"])
p("C91", "Segmentation metrics of a union lie between those of its parts",
  "The accuracy of the union of two data sets is the average of theirs weighted by pixels; for every label of both, precision, recall, F1, IoU and the unmatched ratios of the union lie between the values of the parts, and equal the value of the only part that has the label; every confusion matrix cell lies between those of the parts (0 where not listed).",
  "every two data sets and their concatenation, every view and datum expression, both back ends",
  "A statement about quotients of counts of three evaluators with different label numberings.",
  [S+"evaluator.py:Evaluator.compute_precision_recall_iou", S+"evaluator.py:Evaluator.get_info"])

p("C92", "Boxes, masks and polygons of the same shapes are evaluated alike",
  "Images whose shapes are boxes with corners on the pixel grid may be added as bounding boxes, as bitmasks with exactly the pixels of the boxes set, or as polygons with the outlines of the boxes: every IoU, and the state of the loader afterwards, is the same, also when kinds are mixed between calls.",
  "every list of calls, image size, number of annotations, rounding of the quotient, both back ends and every earlier state of the loader",
  "The claim relates three input formats on all shapes; tests compare a few IoU values.",
  [O+"loader.py:Loader.add_bounding_boxes", O+"loader.py:Loader.add_bitmasks", O+"loader.py:Loader.add_polygons", O+"computation.py:compute_bbox_iou", O+"computation.py:compute_bitmask_iou", O+"computation.py:compute_polygon_iou"])
p("C93", "Moving an image does not change its evaluation",
  "Shifting, reflecting or turning by 90 degrees all boxes of an image together, by a different move for each image, leaves the loader in the same state as the original images; so does any rearrangement of the pixels of all masks of an image (flip, turn, crop of background, padding).",
  "every list of calls, every combination of moves, every permutation of pixels, both back ends",
  "Metamorphic property over all moves and shapes.",
  [O+"computation.py:compute_bbox_iou", O+"computation.py:compute_bitmask_iou", O+"loader.py:Loader.add_bounding_boxes", O+"loader.py:Loader.add_bitmasks"])
p("C94", "The unit of length does not matter",
  "Multiplying all coordinates of an image by a positive factor (pixels, normalised coordinates) does not change any IoU, nor the state of the loader afterwards.",
  "every list of calls with boxes of positive area, every positive factor per image, both back ends",
  "Metamorphic property over all factors; only small boxes reveal the absolute threshold of the division.",
  [O+"computation.py:compute_bbox_iou", O+"loader.py:Loader.add_bounding_boxes"])
p("C95", "A failing add leaves nothing behind",
  "Adding images with bitmasks fails exactly if some image of the call has ground truths and predictions whose masks do not all have the same two- or more-dimensional shape; then no image of the call is stored. A caller who catches the errors and goes on gets the evaluator of the calls that returned.",
  "every sequence of calls of all kinds, every earlier state, both back ends",
  "Atomicity concerns all histories of failing and returning calls.",
  [O+"loader.py:Loader.add_bitmasks", O+"computation.py:compute_bitmask_iou"])
p("C96", "The overlap of a pair is the overlap of this pair",
  "Annotations and detections that the public classes accept, with scores on predictions only, meet the conditions of the properties about detection reports; the IoU used for a prediction and a ground truth is the common area divided by the joint area of these two shapes, for any numbers of annotations; an accepted mask has IoU 1 with itself.",
  "every image and pair of annotations, every sequence of calls, both back ends",
  "Index arithmetic over matrices of all sizes.",
  [O+"annotation.py:BoundingBox", O+"annotation.py:Bitmask", O+"annotation.py:Detection", O+"loader.py:Loader.add_bounding_boxes", O+"loader.py:Loader.add_bitmasks"])
p("C97", "Different requests give different prompts",
  "Two requests to the LLM that differ in what is asked, in the system prompt, or in any text or list of texts have different messages; what is asked for never depends on the texts.",
  "every pair of requests, texts with any characters, lists of any length",
  "Injectivity quantifies over all pairs of texts, including those with quotes, backslashes, newlines and headings of the template.",
  [T+"llm/instructions.py:1-814", T+"llm/generation.py:68-905"])
p("C98", "The prompt shows the inputs",
  "The instruction ends with the inputs of the request, each below its heading and in the documented order: texts as they are, lists as Python list literals with exactly these strings; such a literal can be read back in one way only.",
  "every request, texts with any characters, lists of any length",
  "Escaping must be right for every character and every list.",
  [T+"llm/instructions.py:1-814"])
p("C99", "Only strings and the system prompt reach the LLM",
  "Every message of every guided metric, and of computing all metrics, carries the system prompt of the evaluator; its lists hold strings only, whatever the LLM answered before.",
  "every response, every client, every sequence of answers, every number of retries",
  "The lists of later messages come from arbitrary earlier answers.",
  [T+"manager.py:Evaluator.compute_all", T+"llm/generation.py:_generate", T+"llm/validators.py"])
p("C100", "Each guided metric looks at its documented inputs only",
  "Result, messages and final state of the client are the same for two responses that agree on the inputs the metric is documented to use, e.g. the response only for bias and toxicity, the query and the retrieved contexts only for context relevance.",
  "every pair of responses that agree on these inputs, every client",
  "Independence of an input concerns all values of that input.",
  [T+"manager.py:Evaluator", T+"computation.py"])
p("C101", "Classification examples, page by page",
  "The examples of a page of any classification evaluator are those of the datums of that page of the remaining data, in the order in which they were added: one entry per datum and threshold, with the ground truth as true positive or false negative and the other predicted labels as false positives. Consecutive pages list everything exactly once; only an empty list of thresholds is refused.",
  "every data set with distinct candidates per datum, every sequence of filters, both back ends, any storage batches, limits, offsets, thresholds and filters on datums",
  "Pages cut through arbitrary storage batches.",
  [K+"evaluator.py:Evaluator.compute_examples", K+"utilities.py:unpack_examples", C+"compute.py:paginate_index"])
p("C102", "The classification confusion matrix with examples is exact",
  "For every threshold the reported dictionary has the labels of the data, each once, and every cell holds the number and the list, in the order in which they were added, of the datums of that ground truth for which that label is predicted, with its score; the unmatched ground truths are the remaining datums without a prediction. No lookup fails, and storage makes no difference.",
  "every data set with distinct candidates per datum, every sequence of filters, both back ends, any thresholds and filters on datums",
  "The loop runs over two lists of unrelated length for arbitrary storage batches.",
  [K+"evaluator.py:Evaluator.compute_confusion_matrix_with_examples", K+"utilities.py:unpack_confusion_matrix_with_examples"])
p("C103", "The object detection confusion matrix is exact, ties included",
  "Within an image, overlapping pairs of a prediction and a ground truth are matched one-to-one in turn: best score first, then best overlap, then the ground truth and the prediction added first. Cell (g, p) of the confusion matrix at an IoU and a score threshold is the number of matched pairs with those labels that reach both thresholds; the unmatched counts are the ground truths, and the predicted labels that reach the score threshold, without such a match. The labels are those of the data, each once; only an empty list of thresholds is refused.",
  "every data set with distinct labels per prediction, equal scores and overlaps included, every sequence of filters, both back ends, any storage batches, thresholds and filters on datums",
  "The result depends on the order of ties, which goes through a sort, storage batches and a merge.",
  [O+"evaluator.py:Evaluator.compute_confusion_matrix", O+"computation.py:compute_pair_classifications", O+"computation.py:compute_confusion_matrix", O+"utilities.py:unpack_confusion_matrix"])
p("C104", "Object detection examples, page by page",
  "The examples of a page are those of the images of that page of the remaining data, in the order in which they were added: for every IoU and every score threshold one entry with the pairs matched with the same label, the predictions matched with another label or with nothing (once per such label), and the ground truths matched with another label or with nothing, each list in the order of the input. Consecutive pages list everything exactly once; only an empty list of thresholds is refused.",
  "every data set with distinct labels per prediction, every sequence of filters, both back ends, any storage batches, limits, offsets, thresholds and filters on datums",
  "Pages cut through arbitrary storage batches.",
  [O+"evaluator.py:Evaluator.compute_examples", O+"utilities.py:unpack_examples", C+"compute.py:paginate_index"])
p("C105", "The object detection confusion matrix with examples is exact",
  "For every pair of thresholds the reported dictionary has the labels of the data, each once, and every cell lists the matched pairs (or the unmatched ground truths, predictions) of its labels by image and annotation, in the order of the input, with their number. No lookup fails, the counts are those of the confusion matrix without examples, and storage makes no difference.",
  "every data set with distinct labels per prediction, every sequence of filters, both back ends, any storage batches, thresholds and filters on datums",
  "The loop runs over three lists of unrelated length for arbitrary storage batches.",
  [O+"evaluator.py:Evaluator.compute_confusion_matrix_with_examples", O+"utilities.py:unpack_confusion_matrix_with_examples"])
p("C106", "Classification metrics as documents",
  "compute_precision_recall, compute_rocauc, compute_confusion_matrix, compute_examples and compute_confusion_matrix_with_examples return exactly the expected metrics: the keys in order, under every key one metric per threshold or per label and threshold in order, filed under its own type, each with the value of the data and with parameters naming its threshold, hardmax and label, so that type and parameters identify a metric.",
  "every data set with distinct candidates per datum, every sequence of filters, both back ends, any thresholds, limits and filters on datums; identification of matrices for thresholds without repetition",
  "The shape of the result depends on the number of labels and thresholds; tests look at single entries.",
  [K+"utilities.py:unpack_precision_recall", K+"utilities.py:unpack_rocauc", K+"utilities.py:unpack_confusion_matrix", K+"utilities.py:unpack_examples", K+"metric.py:Metric"])
p("C107", "Object detection metrics as documents",
  "compute_precision_recall, compute_confusion_matrix, compute_examples and compute_confusion_matrix_with_examples return exactly the expected metrics: the keys in order, under every key one metric per threshold, label or combination in order, filed under its own type, each with the value computed for these and with parameters naming them, so that type and parameters identify a metric. An empty list of thresholds is refused.",
  "every accepted data set, every sequence of filters, both back ends, any thresholds, limits and filters on datums",
  "The shape of the result depends on the number of labels and thresholds; tests look at single entries.",
  [O+"utilities.py:unpack_precision_recall_into_metric_lists", O+"utilities.py:unpack_confusion_matrix", O+"utilities.py:unpack_examples", O+"metric.py:Metric"])
p("C108", "Segmentation metrics as documents",
  "compute_precision_recall_iou returns exactly the expected metrics: accuracy, confusion matrix and mIOU, and precision, recall, F1 and IOU of every label, filed under their types, each with the value of the pixels; type and parameters identify a metric.",
  "every accepted data set, every sequence of filters, both back ends and filters on datums",
  "The shape of the result depends on the number of labels.",
  [S+"utilities.py:unpack_precision_recall_iou_into_metric_lists", S+"metric.py:Metric"])
p("C109", "Metrics are separate objects",
  "The result of to_dict is a snapshot: it has the contents of the metric, no later change of anything else changes it, and changing it does not change the metric. Two metrics, of one call or of different calls, share no list or dictionary, so that changing one in place does not change another; inside one metric no list or dictionary is at two places.",
  "every metric, every report, every sequence of in-place changes; without sharing except for lists passed by the caller",
  "Aliasing shows only after later changes; tests compare fresh results.",
  ["src/valor_lite/schemas.py:BaseMetric.to_dict", K+"utilities.py:unpack_precision_recall", O+"metric.py:Metric", S+"metric.py:Metric"])
p("C110", "Metrics survive JSON",
  "Reading back the JSON text of a metric's to_dict gives an equal dictionary, provided the value is not NaN.",
  "every metric of every report; object detection examples just when they have no true positives",
  "Depends on the types of all nested values for arbitrary reports.",
  ["src/valor_lite/schemas.py:BaseMetric.to_dict", K+"utilities.py:unpack_examples", O+"utilities.py:unpack_examples", S+"utilities.py:unpack_precision_recall_iou_into_metric_lists"])
p("C111", "BLEU weights: defaults and reported parameters",
  "A call without weights uses four quarters whatever was done before; the weights a metric shows are those it was computed with. Each metric keeps the very list of its call, and a change in place shows in exactly the metrics that keep the changed list.",
  "every sequence of calls with default or own lists, of to_dict and of in-place changes; as long as lists held by metrics are not changed in place",
  "The default list is one object shared by all calls, so only later calls show the effect.",
  [T+"manager.py:Evaluator.compute_sentence_bleu", T+"manager.py:Evaluator.compute_all", T+"metric.py:Metric.bleu"])

p("C112", "Reported ratios are the exact ratios up to one rounding",
  "Each reported accuracy, precision, recall, IoU and unmatched ratio is the double nearest to the exact fraction of counts, so it lies in [0, 1], is 0 or 1 exactly when the fraction is, and a smaller fraction is never reported as a larger one; F1 is within 5 half ulps (relative) of the exact F1 and is 0 or 1 exactly when that is.",
  "every evaluator of either back end, filtered or not, every label, threshold and datum filter, totals up to 2^53 (F1 of classification and detection: up to 10^9)",
  "Tests compare a few values with a tolerance; the bound must hold for all counts.",
  [K+"computation.py:compute_precision", K+"computation.py:compute_f1_score", O+"computation.py:compute_precision_recall_f1", S+"computation.py:compute_metrics"])
p("C113", "Reported averages are the averages of the reported values",
  "Each reported average (AP, mAP, AR, mAR, mean IoU and their averages over thresholds) lies in [0, 1], is 0 exactly when all averaged values are, is 1 when all are, lies between the smallest and largest averaged value, and is within a number of half ulps of the exact average that grows with the number of values only.",
  "every evaluator, label, list of thresholds and order of adding up",
  "Summation order and accumulated rounding depend on numpy's internals.",
  [O+"computation.py:compute_average_precision", O+"computation.py:compute_average_recall", O+"utilities.py:unpack_precision_recall_into_metric_lists", S+"computation.py:compute_metrics"])
p("C114", "Reported ROC AUC is the exact area up to rounding",
  "Each reported ROC AUC is in [0, 1], is 1 for a perfect ranking, and is within 22 half ulps per datum of the share of correctly ranked pairs, wherever the curve is cut into files.",
  "every evaluator whose remaining ground truths kept their candidates, of fewer than 2^47 datums, and every order of adding up",
  "Rounding accumulates over trapezoids and files.",
  [K+"computation.py:compute_rocauc", K+"evaluator.py:Evaluator.compute_rocauc"])

p("C115", "Text generation scores are the exact scores up to rounding",
  "Computing with floats changes neither the conversation with the client, nor which metrics fail, nor the order of results. Scores that are fractions of counts are the nearest double; answer correctness is within 5 half ulps (relative); context precision within 4 half ulps on Python 3.12 and later and one per context (plus one) before. All stay in range, are 0 exactly when the exact score is 0 and 1 when it is 1, and moving a useful context one place forward raises the reported context precision.",
  "every client, response, retry count and Python; context precision: up to 65536 contexts, the order up to 4096",
  "The rounding of sums depends on the verdicts and on the Python version.",
  [T+"computation.py:calculate_context_precision", T+"computation.py:calculate_answer_correctness", T+"computation.py:calculate_context_recall", T+"manager.py:Evaluator.compute_all"])
p("C116", "Documents of text generation metrics",
  "to_dict of each guided metric has exactly type, value and parameters (evaluator, retries); the value is a float in [0, 1], an int from 1 to 5 for summary coherence, or type and message of the error. compute_all gives the documents of the ten guided metrics, one ROUGE document for each type and one BLEU document, in this order; type and parameters tell them apart.",
  "every client, response, retry count from 0, weights and rouge types, up to 65536 contexts",
  "Which of the metrics fail depends on the client.",
  ["src/valor_lite/schemas.py:BaseMetric.to_dict", T+"metric.py:Metric.error", T+"manager.py:Evaluator.compute_all"])

p("C117", "The IoU of boxes as computed in floats",
  "The float IoU of two boxes is in [0, 1], symmetric, 0 for boxes without common interior, positive for overlapping ones, exactly 1 for identical ones, and within 17 half ulps (relative) of area of intersection over area of union, if the areas are not about 1e-9 or less. For integer corners up to 2^25, and for masks, it is the nearest double to the exact quotient, a threshold that is reached exactly is reached by the float, and a box gets the same IoU as its mask. The tables built from these floats satisfy the conditions of all statements about the evaluator.",
  "all boxes; double coordinates of any sign and magnitude (unbounded exponent); masks of up to 2^52 pixels",
  "Rounding depends on the coordinates; tests use round numbers.",
  [O+"computation.py:compute_bbox_iou", O+"computation.py:compute_bitmask_iou", O+"loader.py:Loader.add_bounding_boxes"])
p("C118", "The float IoU and thresholds, moves and scaling",
  "A pair passes an IoU threshold exactly if its exact IoU does; shifting, mirroring, transposing or scaling a picture does not change the float IoUs; an IoU of 1 means equal boxes.",
  "all boxes with double coordinates and area above 1e-9",
  "Only particular coordinates show the differences.",
  [O+"computation.py:compute_bbox_iou", O+"loader.py:Loader.add_bounding_boxes"])

p("C119", "File caches at any path",
  "A file cache works whatever characters its path contains: all rows written are read back in order, delete removes it, sort_by sorts its tables, and writing, sorting, deleting or creating a cache changes no other directory.",
  "all directory trees, paths, write histories; reading and deleting as long as no component of the path contains [, and other directories as long as no component contains one of * ? [",
  "Tests use temporary directories with ordinary names; the effect needs a path that is also a pattern, and for * and ? a neighbour that matches.",
  [C+"persistent.py:FileCache.get_dataset_files", C+"persistent.py:FileCacheWriter._generate_next_filename", C+"persistent.py:FileCacheWriter.delete", C+"persistent.py:FileCacheWriter.sort_by"])

p("C120", "Any number of labels",
  "A classification prediction counts as a true positive only for the ground truth's own label, however many labels there are: with hardmax the TP count of a label is the number of datums that predict it and have it as ground truth.",
  "all inputs and storages, hardmax; the exact TP and FP counts for any number of labels, their agreement with the claim for at most 100000 labels",
  "Tests use a handful of labels; the tolerance of the comparison of label numbers exceeds 1 only from number 100000 on.",
  [K+"computation.py:compute_counts", K+"computation.py:compute_pair_classifications"])

p("C121", "Predictions below the score threshold do not matter",
  "At a score threshold, the counts, precision, recall and F1 of each label and the confusion matrix (matches and unmatched annotations) stay the same when predictions all of whose scores are below the threshold are left out.",
  "all inputs, overlaps, storages, selections of datums and labels; IoU thresholds above 0 for the counts; predictions without repeated labels",
  "Low predictions take part in the ranking and in the matching; that they never displace others depends on the order of all rows.",
  [O+"computation.py:compute_counts", O+"computation.py:rank_pairs", O+"computation.py:compute_pair_classifications", O+"computation.py:compute_confusion_matrix"])
p("C122", "More predictions never lower recall",
  "Adding predictions to an image, in any position, with any labels, scores and overlaps, never lowers the true positives, the recall or the average recall of a label, at any threshold.",
  "all inputs, overlaps, storages, selections of datums and labels; IoU thresholds above 0; predictions without repeated labels",
  "A new prediction changes the ranking of all the others.",
  [O+"computation.py:compute_counts", O+"computation.py:rank_pairs", O+"evaluator.py:Evaluator.compute_precision_recall"])

p("C123", "Filters on object detection metadata select by an annotation's own metadata",
  "A row keeps exactly the declared metadata fields and metadata never changes the reserved columns. A filter on a metadata field keeps exactly the ground truths (predictions, datums) whose own value, or else that of their datum, satisfies the condition, and nothing else changes.",
  "all inputs with metadata, declared fields, conditions on the value of a field, evaluators built and filtered with either back end; uids that do not stand for different metadata",
  "Each row merges the metadata of the datum, a ground truth and a prediction into the same columns; whether values leak depends on the overlaps.",
  [O+"loader.py:Loader._add_data", O+"evaluator.py:Evaluator.filter", O+"shared.py:generate_detailed_schema", O+"annotation.py:Detection"])

p("C124", "Filters on classification metadata keep whole datums",
  "A row keeps exactly the declared metadata fields and metadata never changes the reserved columns. A filter on a metadata field, passed as datums, groundtruths or predictions, keeps exactly the datums whose value satisfies the condition, with all their candidates; the metrics are those of an evaluator built from these datums.",
  "all inputs with metadata, declared fields, conditions on the value of a field, evaluators with either back end; uids that do not stand for different metadata; for ROCAUC the condition of C22",
  "Metadata is repeated on each candidate row and the filter joins rows on ids; a test sees a few rows.",
  [K+"loader.py:Loader.add_data", K+"evaluator.py:Evaluator.filter", K+"shared.py:generate_schema", K+"annotation.py:Classification"])

p("C125", "A label is evaluated on its own",
  "The counts, precision, recall, F1 and average recall of a label are determined, image by image, by the number of its ground truths and the scores and overlaps of its predictions with them: other labels, annotations with other labels and the name of the label have no influence. For average precision and the precision-recall curve this holds when no two predictions of the label have the same score; with equal scores, and with predictions that have several labels, it is refuted.",
  "all pairs of inputs whose images agree on the label, selections, IoU thresholds > 0, score thresholds, evaluators with either back end; predictions with one label",
  "Two unrelated inputs are compared; the evaluator ranks all labels in one table, so a dependence between labels shows only for particular overlaps and ties.",
  [O+"loader.py:Loader._add_data", O+"computation.py:rank_table", O+"computation.py:rank_pairs", O+"computation.py:compute_counts", O+"computation.py:compute_precision_recall_f1"])

p("C126", "Only the order of the scores matters",
  "Replacing the scores of all predictions by other scores in the same order, and the score threshold by one at the same place among them, changes no count, precision, recall or F1, no average precision, precision-recall curve or mean average precision, and no cell of the confusion matrix, including the examples listed in it.",
  "all inputs, score replacements that are strictly increasing on the scores that occur and keep them on the same side of the tolerance, selections, thresholds, evaluators with either back end",
  "Quantifies over all monotone transformations of the scores (calibration), in memory and in files.",
  [O+"computation.py:rank_pairs", O+"computation.py:compute_counts", O+"computation.py:compute_precision_recall_f1", O+"computation.py:compute_pair_classifications", O+"evaluator.py:Evaluator.compute_precision_recall", O+"evaluator.py:Evaluator.compute_confusion_matrix_with_examples"])

p("C127", "Only the order of the scores of a classification matters",
  "Replacing all scores of the classifications by other scores in the same order, with zero staying zero, and each score threshold by one at the same place among them, changes no count, accuracy, precision, recall, F1 or confusion matrix cell and no ROC AUC or mean ROC AUC, with or without hardmax and after any filters.",
  "all inputs without repeated candidate labels, score replacements that are strictly increasing on the scores that occur and keep which of them are zero (or within the tolerance), threshold lists, filters and datum expressions, evaluators with either back end",
  "Quantifies over all monotone transformations of the scores (calibration), over all data and filters.",
  [K+"computation.py:compute_counts", K+"computation.py:compute_rocauc", K+"computation.py:compute_confusion_matrix", K+"evaluator.py:Evaluator.compute_precision_recall", K+"evaluator.py:Evaluator.compute_rocauc", K+"evaluator.py:Evaluator.compute_confusion_matrix"])

p("C128", "The warning about overlapping masks counts the overlapping pixels",
  "Constructing a Segmentation warns for the ground truths (predictions) exactly if two of them overlap, which is exactly if a mask is changed; the warning counts exactly the pixels that lie in two masks, out of all pixels of the image.",
  "every list of masks of every shape",
  "Counting fails only for three or more masks with a chain of overlaps; quantifies over all masks.",
  [S+"annotation.py:Segmentation._validate_bitmasks"])

p("C129", "The tables and arrays read from a cache are the columns asked for",
  "iterate_tables, iterate_arrays and iterate_tables_with_arrays return exactly the selected rows in the order they were written, with the requested columns (arrays: in the requested order, with the same numbers), for caches in memory and in files alike and whichever optional arguments are left out; count_rows and count_tables count them.",
  "all caches, splits into files, filters, lists of columns, prunings of files that hold no selected row, and iteration orders of sets",
  "Quantifies over all splits of the rows, all filters and all values; large integers and left-out arguments are not tested.",
  [C+"ephemeral.py:MemoryCacheReader.iterate_tables_with_arrays", C+"ephemeral.py:MemoryCacheReader.iterate_arrays", C+"persistent.py:FileCacheReader.iterate_tables", C+"persistent.py:FileCacheReader.iterate_arrays", C+"persistent.py:FileCacheReader.iterate_tables_with_arrays"])

p("C130", "Predictions appended with lower scores never lower average precision",
  "Appending predictions to images, with scores for a label below all its other scores, never lowers the average precision of the label nor any point of its precision-recall curve, and leaves both unchanged if the new predictions overlap no ground truth of the label enough; if they name no new label, the mean average precision is not lowered either.",
  "all inputs without repeated labels in a prediction, with ties and several labels per prediction, overlaps, storages, selections of datums; IoU thresholds above 0",
  "Quantifies over all data sets and all ways of lengthening the list of detections (the usual practice of keeping low-scored boxes).",
  [O+"computation.py:compute_counts", O+"computation.py:rank_pairs", O+"computation.py:compute_average_precision", O+"evaluator.py:Evaluator.compute_precision_recall"])

p("C131", "Computing detection metrics never indexes outside its arrays",
  "compute_precision_recall and compute_confusion_matrix succeed on every evaluator built from valid data or derived from one by filters, for every non-empty list of thresholds, whatever order the unstable sort gives to equal precisions. The arrays of compute_precision_recall have one entry per label and 101 recall bins per label, and hold the ground-truth counts, true and false positives, precisions and scores that are reported. The metric lists have one entry per threshold and label, in the order of the label map, with these values. The confusion matrices have one cell per pair of labels with the counts that are reported. Without thresholds both raise a ValueError.",
  "every data set, storage, chain of filters, datum filter, list of IoU and score thresholds (also zero or negative), and every order of equal precisions",
  "Index errors and misaligned arrays only show for particular label sets, filters and counts; equal precisions are ordered arbitrarily by argsort.",
  [O+"computation.py:compute_counts", O+"evaluator.py:Evaluator.compute_precision_recall", O+"shared.py:extract_groundtruth_count_per_label", O+"utilities.py:unpack_precision_recall_into_metric_lists"])

p("C132", "Computing classification metrics never indexes outside its arrays",
  "compute_precision_recall, compute_confusion_matrix and compute_rocauc succeed on every evaluator that was built from valid data or filtered, and so does the computation of the ROC curve in finalize; they return the values that the other properties describe. An evaluator loaded from a filtered cache without giving its labels has as many labels as remain in the data; each of the three computations succeeds on it exactly when the remaining labels have the lowest numbers, and raises otherwise.",
  "every data set without repeated candidate labels, storage, chain of filters, datum filter, non-empty list of thresholds and order of the files in the directory",
  "Index errors only show for particular label sets and filters, and for which filtered caches loading without labels works depends on the order in which labels first occurred.",
  [K+"computation.py:compute_counts", K+"computation.py:compute_confusion_matrix", K+"computation.py:compute_rocauc", K+"evaluator.py:Evaluator.load", K+"evaluator.py:Evaluator.filter", K+"shared.py:extract_groundtruth_count_per_label", K+"utilities.py:unpack_precision_recall"])

p("C133", "When a filtered segmentation or detection cache can be loaded without its labels",
  "An evaluator loaded from a filtered cache without giving its labels knows only the labels that the remaining rows mention; these keep their numbers and, number by number, their metrics. Computing metrics on it succeeds exactly when the labels that are left are those with the lowest numbers (for segmentation: the labels that were added first), and raises otherwise. Means over labels are then taken over the labels that are left.",
  "every data set, storage, chain of filters, datum filter, list of thresholds and order of the files in the directory",
  "Whether loading works depends on the order in which labels first occurred and on which of them a filter leaves; a test with one data set shows one of the two outcomes.",
  [O+"evaluator.py:Evaluator.load", O+"evaluator.py:Evaluator.filter", O+"shared.py:extract_labels", O+"utilities.py:unpack_precision_recall_into_metric_lists", S+"evaluator.py:Evaluator.load", S+"evaluator.py:Evaluator.filter", S+"utilities.py:unpack_precision_recall_iou_into_metric_lists"])

p("C134", "Segmentation never indexes outside its arrays",
  "Adding segmentations to a builder succeeds for everything the Segmentation constructor accepts, also with overlapping masks, repeated labels, or without ground truths or predictions: the label numbers are inside the count matrix and the assigned blocks fit. Computing metrics succeeds on every evaluator built from clean data or derived from one by filters, and the entries that are read from the arrays are the documented set-theoretic quantities.",
  "every list of constructed segmentations, every state of the loader, storage, chain of filters and datum filter",
  "Broadcasting and index errors depend on the number of masks, labels and their order; an empty ground-truth or prediction list takes a special path.",
  [S+"computation.py:compute_intermediates", S+"computation.py:compute_metrics", S+"loader.py:Loader.add_data", S+"evaluator.py:Evaluator._compute_confusion_matrix_intermediate", S+"utilities.py:unpack_precision_recall_iou_into_metric_lists"])

p("C135", "The example reports of a filtered cache do not need its labels",
  "Loading a filtered classification or object detection cache from disk without passing the label map, compute_examples and compute_confusion_matrix_with_examples never raise and describe the filtered data, whatever numbers the labels that are left have: each page lists the same entries as with the label map, and the matrix has exactly one row and one column for every label that is left, with the same counts and examples as with the label map.",
  "every input, chain of filters, filter, files in any order, datum filter, page, list of thresholds",
  "compute_precision_recall and compute_confusion_matrix fail on the same caches (C132, C133); whether a report works depends on which labels a filter happens to leave.",
  [O+"evaluator.py:Evaluator.load", O+"evaluator.py:Evaluator.compute_examples", O+"evaluator.py:Evaluator.compute_confusion_matrix_with_examples", K+"evaluator.py:Evaluator.load", K+"evaluator.py:Evaluator.compute_examples", K+"evaluator.py:Evaluator.compute_confusion_matrix_with_examples", O+"utilities.py:unpack_confusion_matrix_with_examples"])

p("C136", "Classification filters can be applied in any order, or all at once",
  "Filtering a classification evaluator several times gives the same outcome in every order of the calls, whether each intermediate result is kept in memory or in files, and the same outcome as a single call with the conjunctions of the expressions: either both ways raise EmptyCacheError, exactly when no candidate is selected by all the calls, or both give evaluators with the same summary, the same entries in compute_precision_recall for every datum filter and threshold, the same confusion matrices and the same ROC AUC. The groundtruths expressions must be about the ground truth or the datum, not about single predictions.",
  "every input, evaluator (built or filtered, in memory or in files), list of filter calls, permutation of it, threshold and datum filter",
  "The intermediate caches differ in row order, batches and stored curves, and the number of orders grows with the number of filters.",
  [K+"evaluator.py:Evaluator.filter", K+"evaluator.py:Evaluator.compute_precision_recall", K+"evaluator.py:Evaluator.compute_confusion_matrix", K+"evaluator.py:Evaluator.compute_rocauc"])

p("C137", "Detection and segmentation filters can be applied in any order, or all at once",
  "Filtering an object detection or segmentation evaluator any number of times gives the same outcome in every order of the calls, whether each intermediate result is kept in memory or in files, and the same outcome as one call with the conjunctions of the expressions: either every way raises EmptyCacheError, exactly when nothing is selected by all the calls, or every way gives an evaluator with the same metrics for every datum filter. Detection compares counts, precision, recall, F1, curves, AP, AR, mAP and mAR; segmentation compares the whole report and the summary.",
  "every input, evaluator (built or filtered, in memory or in files), list of filter calls, permutation of it, threshold and datum filter",
  "Every intermediate cache is cut, sorted and ranked again, and the number of orders grows with the number of filters.",
  [O+"evaluator.py:Evaluator.filter", S+"evaluator.py:Evaluator.filter", O+"evaluator.py:Evaluator.compute_precision_recall", S+"evaluator.py:Evaluator.compute_precision_recall_iou"])

p("C138", "Label names and identifiers do not matter",
  "Replacing every label by another name, so that different labels keep different names, and replacing the uids of datums and annotations by any others, also by repeated ones, changes nothing in the reports except the names and uids: each entry of a classification report (counts, precision, recall, F1, confusion matrix with and without examples, ROC AUC, pages of examples), of a detection report (counts, precision, recall, F1, curves, AP, AR, confusion matrix with its examples) and of a segmentation report (precision, recall, F1, IoU, hallucinations and missing predictions) under a new name is the entry under the old one, and accuracy, mean ROC AUC, mAP, mAR, mIoU, and the summaries are equal; the pages of detection examples are the same entries under the new uids. This holds for built and filtered evaluators, in memory and in files. Giving two labels the same name does change the reports.",
  "every input, injective renaming of its labels, renaming of its uids, pair of evaluators (storage, batch size and sequence of filters chosen separately for the two, as long as they select the same annotations), threshold and datum filter",
  "Labels are numbered by first occurrence, used as array indices and sorted or looked up in several places; a dependence on their spelling or order would only show for particular names. Repeated uids would be merged if a computation grouped by uid instead of datum number.",
  [K+"loader.py:Loader._add_label", K+"evaluator.py:Evaluator.compute_precision_recall", K+"evaluator.py:Evaluator.compute_confusion_matrix", K+"evaluator.py:Evaluator.compute_rocauc", K+"evaluator.py:Evaluator.compute_examples", K+"evaluator.py:Evaluator.compute_confusion_matrix_with_examples", O+"evaluator.py:Evaluator.compute_precision_recall", O+"evaluator.py:Evaluator.compute_examples", O+"evaluator.py:Evaluator.compute_confusion_matrix_with_examples", S+"evaluator.py:Evaluator.compute_precision_recall_iou"])

p("C139", "Raising the score threshold of a classification only removes predictions",
  "Raising the score threshold of compute_precision_recall never adds a true or false positive of any label and never removes a true negative (false positives and true negatives of a label keep their sum), and accuracy never rises; turning hardmax on has the same effect. False negatives never fall and recall never rises. In compute_confusion_matrix no cell grows and no count of unmatched ground truths falls. The thresholds may come from one request or from two. The claims on false negatives and recall hold with hardmax when every ground truth is a candidate of its datum, and are false otherwise: recall can rise with the threshold. The claim on the confusion matrix holds when the lower threshold's request lists its thresholds in ascending order, and is false otherwise.",
  "every input with distinct candidates, evaluator built or filtered, datum filter, pair of thresholds and lists containing them, label",
  "The claims compare two thresholds on the same data, for all data; users pick a threshold from such curves assuming they are monotone.",
  [K+"computation.py:compute_counts", K+"computation.py:compute_confusion_matrix", K+"evaluator.py:Evaluator.compute_precision_recall", K+"evaluator.py:Evaluator.compute_confusion_matrix"])

p("C140", "Evaluating every datum several times scales the counts and leaves the ratios",
  "If every datum is listed n times (in any order, over any calls and back ends) instead of once, every count is multiplied by n and every ratio is unchanged. Classification: true and false positives and negatives, confusion matrix cells and unmatched ground truths, rows and datums are n times as many; accuracy, precision, recall, F1 and ROC AUC are equal. Object detection: counts of ground truths, true positives, false positives, false negatives and all cells of the confusion matrix are n times as many; precision, recall, F1 and average recall are equal. Semantic segmentation: pixel and datum counts are n times as many, every reported rate, IoU and confusion matrix entry is equal. ROC AUC is claimed for labels whose best score is not zero and with every ground truth among its candidates. Average precision is not part of the claim: it depends on the order of equal scores (see C87).",
  "every input, number of repetitions, order of the repeated data, evaluator built or filtered, datum filter, threshold and label",
  "The claim compares evaluations of two different data sets for every data set and every n; a metric that secretly depends on the size of the data (or on positions in a batch) would break it.",
  [K+"computation.py:compute_counts", K+"computation.py:compute_accuracy", K+"computation.py:compute_rocauc", K+"computation.py:compute_confusion_matrix", O+"computation.py:compute_counts", O+"computation.py:compute_confusion_matrix", S+"computation.py:compute_metrics"])

p("C141", "Exchanging ground truths and predictions of segmentations exchanges precision and recall",
  "Evaluate a segmentation data set, and the same data set with the predicted masks given as ground truths and the ground truth masks given as predictions. Precision of one report is recall of the other, label by label, and the ratios of unmatched predictions and unmatched ground truths trade places; the confusion matrix is transposed; accuracy, F1, IoU and mean IoU are equal; get_info exchanges the numbers of ground truth and prediction pixels and keeps the others.",
  "every data set with disjoint masks and distinct labels per datum, evaluators built or filtered (with exchanged filters), any calls and back ends",
  "The claim relates two evaluations for every data set; a mixed-up axis anywhere between the loader and the report breaks it.",
  [S+"computation.py:compute_intermediates", S+"computation.py:compute_metrics", S+"evaluator.py:Evaluator.compute_precision_recall_iou", S+"loader.py:Loader.add_data"])

p("C142", "What a perfect score means",
  "Classification: accuracy at a threshold is 1 exactly if the ground truth of every datum of the evaluator is predicted; precision of a label is 1 exactly if the label is predicted at least once and only for datums with this ground truth; recall is 1 exactly if it is predicted for some datum with this ground truth, for every such datum that has it as a candidate, and nothing else is predicted for these datums; F1 is 1 exactly if both are. Object detection: recall is 1 exactly if the label has ground truths in the selected images and every one of them is detected (a prediction of the label with a sufficient score overlaps it enough and overlaps no other ground truth of the label more); precision is 1 exactly if as many predictions are accepted as ground truths are detected, and not zero. Semantic segmentation: accuracy is 1 exactly if ground truth and prediction agree on every pixel; precision (recall) of a label is 1 exactly if the label is predicted (occurs) and every pixel predicted (labelled) with it is labelled (predicted) with it; IoU and F1 are 1 exactly if the label occurs and the labelled and the predicted pixels are the same.",
  "every input, evaluator (classification, segmentation: built or filtered; detection: built, a filtered one reports like one built from the kept data by C74), datum filter, threshold and label; for detection without equal overlaps of one prediction with two ground truths of a label",
  "Both directions quantify over all data: a perfect score could be reported for imperfect data, or withheld from perfect data.",
  [K+"computation.py:compute_counts", K+"computation.py:compute_accuracy", K+"computation.py:compute_f1_score", O+"computation.py:compute_counts", O+"computation.py:compute_precision_recall_f1", S+"computation.py:compute_metrics"])

p("C143", "What a zero score means",
  "Precision, recall and F1 of a label are zero together: exactly if the label is never found. Classification: exactly if the label is predicted for no datum with this ground truth; accuracy is 0 exactly if no ground truth is predicted. Object detection: exactly if no ground truth of the label in the selected images is detected, whether or not there are ground truths or predictions. Semantic segmentation: exactly if no pixel carries the label in both ground truth and prediction, and the IoU of the label is then 0 as well; accuracy is 0 exactly if ground truth and prediction differ on every pixel.",
  "every input, evaluator (classification, segmentation: built or filtered; detection: built, see C74 for filtered ones), datum filter, threshold and label, with fewer than 500 million datums (classification) or 1000 million ground truths of the label (detection), where the tolerance 1e-9 of F1 cannot interfere; for detection without equal overlaps of one prediction with two ground truths of a label",
  "Both directions quantify over all data: a division guarded against zero, or a tolerance, could report zero although something was found.",
  [K+"computation.py:compute_counts", K+"computation.py:compute_f1_score", O+"computation.py:compute_precision_recall_f1", S+"computation.py:compute_metrics"])

p("C144", "What ROC AUC 1, 0 and 1/2 mean",
  "The reported ROC AUC of a label is 1 exactly if every datum with this ground truth gives the label a higher score than every other datum that has it as a candidate; it is 0 exactly if every such datum gives it a lower score; it is 1/2 if all datums give the label the same score. After filtering this holds of the remaining candidates.",
  "every evaluator built or filtered, every label with remaining positive and negative candidates whose highest score is not exactly 0, whose positives keep their candidate, and whose curve is not cut right behind its origin (always so in memory), with fewer than 2^64 datums",
  "Both directions quantify over all data and all score assignments; ties decide the difference between a perfect and an almost perfect area.",
  [K+"computation.py:compute_rocauc"])

p("C145", "How the metrics of a segmentation label are related",
  "For every label of a segmentation report: F1 and IoU determine each other by F1 * (1 + IoU) = 2 * IoU; IoU is at most precision, recall and F1; F1 lies between precision and recall; precision plus the ratio of unmatched predictions, and recall plus the ratio of unmatched ground truths, are at most 1. All of this holds also for labels that are never predicted or never occur.",
  "every data set, evaluator built or filtered, datum filter and label",
  "The guards against division by zero are separate for each metric; only a proof over all pixel counts shows that the reported values stay consistent.",
  [S+"computation.py:compute_metrics", S+"evaluator.py:Evaluator.compute_precision_recall_iou"])

p("C146", "Classification and detection metrics of a union lie between those of its parts",
  "Evaluate two data sets and their union with the same thresholds, filters and selection. For every label known to both parts, precision, recall and F1 of the union lie between the values of the parts; for a label known to one part only they equal the values of that part; the union lists no other label.",
  "every two data sets and their concatenation, every evaluator (classification: built or filtered; detection: built), datum expression and back end, every threshold and label, with fewer than 500 million datums (classification) or 1000 million ground truths of the label (detection), where the tolerance 1e-9 of F1 cannot interfere",
  "Relates quotients of counts of three evaluators with different label numberings; F1 is not a plain average, so the claim is not obvious from examples.",
  [K+"evaluator.py:Evaluator.compute_precision_recall", K+"computation.py:compute_f1_score", O+"evaluator.py:Evaluator.compute_precision_recall", O+"computation.py:compute_precision_recall_f1"])

p("C147", "What average precision 1 and 0 mean",
  "Rank the predictions of a label by score. For a label with G > 0 ground truths in the selected images, the reported average precision at an IoU threshold is 1 exactly if each of the G best ranked predictions finds a ground truth that no better ranked prediction found; what follows them does not matter. It is 0 exactly if no prediction finds a ground truth.",
  "every input without equal overlaps of one prediction with two ground truths of a label, every evaluator built in memory or in files, datum filter, IoU threshold and label",
  "Both directions quantify over all rankings; the 101 recall levels and the running maximum could hide a miss or a wrong prediction among the best.",
  [O+"computation.py:compute_average_precision", O+"evaluator.py:Evaluator.compute_precision_recall"])

p("C148", "What mean average precision, mean recall, mean IoU and mean ROC AUC 1 and 0 mean",
  "Mean average precision at an IoU threshold is 1 (0) exactly if the average precision of every label of the evaluator is 1 (0) there; its average over thresholds is 1 (0) exactly if that holds at each threshold. Average precision averaged over thresholds, average recall and mean average recall behave likewise for average precision and recall. A label of the evaluator without ground truths in the selected images scores 0 and so keeps mean average precision and mean average recall below 1. Of a segmentation report: mean IoU is 1 exactly if every label of the data occurs and is predicted on exactly its pixels, 0 exactly if no label is predicted on one of its pixels, and below 1 if a label is not annotated on a remaining pixel. Of a classification report: mean ROC AUC is 1 (0) exactly if, for every label, every datum with this ground truth gives it a higher (lower) score than every other datum that has it as a candidate.",
  "every input, every evaluator built in memory or in files, datum filter, non-empty list of positive IoU thresholds, score threshold and label; for mean IoU every evaluator built or filtered and every datum filter, of data whose masks of one side do not overlap; for mean ROC AUC every evaluator built or filtered whose labels all meet the conditions of C144",
  "Quantifies over all evaluators and selections; a mean that skips labels or thresholds, or divides by another number, can agree on any given test.",
  [O+"computation.py:compute_average_precision", O+"computation.py:compute_average_recall", O+"utilities.py:unpack_precision_recall_into_metric_lists", O+"evaluator.py:Evaluator.compute_precision_recall", S+"computation.py:compute_metrics", K+"computation.py:compute_rocauc"])

here = os.path.dirname(os.path.abspath(__file__))
with open(os.path.join(here, "..", "properties.jsonl"), "w") as f:
    for x in P:
        f.write(json.dumps(x) + "\n")
print(len(P))
