{"id": "C01", "title": "File cache keeps every row in write order", "statement": "After any sequence of write_rows / write_batch / write_table / flush calls on a file cache, the reader returned by to_reader iterates over exactly the rows that were written, each exactly once, in the order in which they were written.", "quantifier": "every sequence of write operations, every batch content and size, every batch_size and rows_per_file", "why_tests_cant": "Loss or duplication depends on how the buffer level, the running file count and the flush points line up; the space of operation sequences is unbounded.", "anchors": ["src/valor_lite/cache/persistent.py:FileCacheWriter.write_rows", "src/valor_lite/cache/persistent.py:FileCacheWriter.write_batch", "src/valor_lite/cache/persistent.py:FileCacheWriter.write_table", "src/valor_lite/cache/persistent.py:FileCacheWriter.flush", "src/valor_lite/cache/persistent.py:FileCacheReader.iterate_tables"]}
{"id": "C02", "title": "Memory cache never loses or invents a row", "statement": "After any sequence of writes, an in-memory cache contains exactly the multiset of rows written; and, when no table is written directly while batches are still buffered, in the order written.", "quantifier": "every sequence of write operations and every batch_size", "why_tests_cant": "Needs all interleavings of buffered and direct writes; the ordering claim fails only for particular interleavings.", "anchors": ["src/valor_lite/cache/ephemeral.py:MemoryCacheWriter.write_batch", "src/valor_lite/cache/ephemeral.py:MemoryCacheWriter.write_table", "src/valor_lite/cache/ephemeral.py:MemoryCacheWriter.flush"]}
{"id": "C03", "title": "Rows written together stay in one fragment", "statement": "All rows handed to one write_rows (or write_batch) call end up in a single file of the file cache, contiguous and in order, so a datum whose rows are written in one call never straddles two files.", "quantifier": "every history of writes, batch_size and rows_per_file", "why_tests_cant": "All per-file algorithms (ranking, pair matching, pagination) silently assume it; a straddling datum shows up only at particular buffer levels.", "anchors": ["src/valor_lite/cache/persistent.py:FileCacheWriter.write_batch", "src/valor_lite/cache/persistent.py:FileCacheWriter.flush", "src/valor_lite/classification/loader.py:Loader.add_data", "src/valor_lite/object_detection/loader.py:Loader._add_data"]}
{"id": "C04", "title": "File size bound", "statement": "A file produced through batched writes of at most m rows each holds at most (rows_per_file-1)+(batch_size-1)+m rows, all files but the last hold at least rows_per_file rows, and unflushed memory is always below batch_size rows.", "quantifier": "every history of batched writes, batch_size and rows_per_file", "why_tests_cant": "Is an invariant over all histories; an example only samples one size pattern.", "anchors": ["src/valor_lite/cache/persistent.py:FileCacheWriter.write_batch"]}
{"id": "C05", "title": "Read order is the numeric order of file indices, whatever the directory listing order", "statement": "The reader's iteration order does not depend on the order in which the file system lists the files, new files always receive a strictly larger index than all existing ones, and the decimal file name round-trips to its index, also beyond 999999.", "quantifier": "every directory listing permutation and every set of existing indices", "why_tests_cant": "The listing order is chosen by the operating system, and the million-file boundary is not reachable in a test.", "anchors": ["src/valor_lite/cache/persistent.py:FileCacheReader.iterate_ordered_fragments", "src/valor_lite/cache/persistent.py:FileCacheWriter._generate_next_filename"]}
{"id": "C06", "title": "External sort yields the stable sort of all rows", "statement": "sort(source, sink, batch_size, sorting) writes to the sink a permutation of the source rows which is ordered by the sorting keys and in which rows with equal keys keep their source order.", "quantifier": "every source content, fragmentation into files, read batch size, list of sort keys and directions", "why_tests_cant": "k-way merges go wrong only for particular key/fragment/batch coincidences.", "anchors": ["src/valor_lite/cache/compute.py:sort", "src/valor_lite/cache/compute.py:_merge"]}
{"id": "C07", "title": "External sort does not depend on how the rows are split", "statement": "Two sources holding the same rows in the same order, split into files and read batches in different ways (including a single in-memory table), are sorted to the same row sequence.", "quantifier": "every pair of fragmentations, read batch sizes and sort keys", "why_tests_cant": "Relational property over two unbounded executions.", "anchors": ["src/valor_lite/cache/compute.py:sort", "src/valor_lite/cache/compute.py:_merge"]}
{"id": "C08", "title": "Sorting works for every combination of source and sink kind", "statement": "sort gives sorted output whether source and sink are memory- or file-backed.", "quantifier": "every source/sink kind combination and every content", "why_tests_cant": "The intermediate store used depends on the sink kind while the merge needs one run per source fragment; no unit test mixes kinds.", "anchors": ["src/valor_lite/cache/compute.py:sort", "src/valor_lite/cache/compute.py:_merge", "src/valor_lite/cache/ephemeral.py:MemoryCacheReader.iterate_fragment_batch_iterators"]}
{"id": "C09", "title": "Pagination returns exactly the requested datums", "statement": "For fragment-aligned keys, paginate_index(offset, limit) yields exactly the rows whose key has rank r (fragment by fragment, keys ascending inside a fragment) with offset <= r < offset+limit; a limit of None or 0 means no limit.", "quantifier": "every cache content, fragmentation, filter, offset and limit", "why_tests_cant": "Off-by-one at fragment boundaries arises for particular (offset, limit, fragmentation) triples only.", "anchors": ["src/valor_lite/cache/compute.py:paginate_index"]}
{"id": "C10", "title": "Pages partition the data", "statement": "Concatenating the pages (0,n), (n,n), (2n,n), ... reproduces every row exactly once, in order of fragments.", "quantifier": "every cache content, fragmentation and page size", "why_tests_cant": "Needs all page boundaries at once.", "anchors": ["src/valor_lite/cache/compute.py:paginate_index"]}
{"id": "C11", "title": "Cache life cycle: create, load, delete", "statement": "create on a fresh path succeeds and can be loaded back with the same configuration; create on an existing path fails unless delete_if_exists; delete removes the cache entirely and is idempotent; operations on one path do not affect another.", "quantifier": "every file-system state and every sequence of create/load/delete/write operations", "why_tests_cant": "State machine over arbitrary directory states.", "anchors": ["src/valor_lite/cache/persistent.py:FileCacheWriter.create", "src/valor_lite/cache/persistent.py:FileCacheWriter.delete", "src/valor_lite/cache/persistent.py:FileCacheReader.load"]}
{"id": "C12", "title": "Cache life cycle survives crashes", "statement": "After a crash at any point inside create or delete, create(path, delete_if_exists=True) succeeds.", "quantifier": "every crash point of create and delete", "why_tests_cant": "Crash points between two system calls cannot be hit by unit tests.", "anchors": ["src/valor_lite/cache/persistent.py:FileCacheWriter.create", "src/valor_lite/cache/persistent.py:FileCacheWriter.delete"]}
{"id": "C13", "title": "Label indices form a dense bijection that is recovered from the rows", "statement": "A loader assigns indices 0,1,2,... to labels in order of first appearance, never maps two labels to one index, never changes an assignment, and the label map extracted from the stored rows equals the loader's map.", "quantifier": "every sequence of added datums, labels repeated arbitrarily", "why_tests_cant": "The map extracted from the cache is rebuilt from per-file unique rows; equality must hold for all data and all file splits.", "anchors": ["src/valor_lite/classification/loader.py:Loader._add_label", "src/valor_lite/object_detection/loader.py:Loader._add_label", "src/valor_lite/classification/shared.py:extract_labels", "src/valor_lite/object_detection/shared.py:extract_labels", "src/valor_lite/semantic_segmentation/shared.py:extract_labels"]}
{"id": "C14", "title": "Classification loader writes one row per candidate label with one winner", "statement": "For each datum the loader stores exactly one row per predicted label carrying that label's score, exactly one of which is marked winner, namely the first one with maximal score, and match is set exactly when predicted and ground-truth labels are equal.", "quantifier": "every ground truth, every non-empty list of predicted labels and scores", "why_tests_cant": "Tie-breaking and completeness over all score vectors.", "anchors": ["src/valor_lite/classification/loader.py:Loader.add_data"]}
{"id": "C15", "title": "Classification counts mean what they say", "statement": "With hardmax, for complete predictions, the reported TP(l), FP(l), FN(l), TN(l) at score threshold s equal the number of datums of the corresponding kind as defined on the input (winning label with score >= s and above the zero tolerance).", "quantifier": "every data set, score threshold, label", "why_tests_cant": "Semantic counting identity between vectorised masks/uniques and a per-datum definition for all inputs.", "anchors": ["src/valor_lite/classification/computation.py:compute_counts", "src/valor_lite/classification/evaluator.py:Evaluator.compute_precision_recall"]}
{"id": "C16", "title": "Every ground truth is counted once: TP + FN = number of ground truths", "statement": "For every label and threshold TP + FN equals the number of datums with that ground-truth label.", "quantifier": "every data set, threshold, hardmax setting", "why_tests_cant": "Fails only for labels that are never predicted or for multi-positive predictions.", "anchors": ["src/valor_lite/classification/computation.py:compute_counts"]}
{"id": "C17", "title": "Classification metrics are well defined and lie in [0,1]", "statement": "Precision, recall, F1 and accuracy are defined (no division by zero) and lie between 0 and 1 for every label and threshold; F1 lies between min and max of precision and recall.", "quantifier": "every data set, label, threshold", "why_tests_cant": "Range claims over all inputs.", "anchors": ["src/valor_lite/classification/computation.py:compute_precision", "src/valor_lite/classification/computation.py:compute_recall", "src/valor_lite/classification/computation.py:compute_f1_score", "src/valor_lite/classification/computation.py:compute_accuracy"]}
{"id": "C18", "title": "Classification results do not depend on how the cache is split into files", "statement": "Counts, and confusion matrices are the same for any datum-aligned split of the same rows into files.", "quantifier": "every data set and every datum-aligned fragmentation", "why_tests_cant": "Relational over all fragmentations.", "anchors": ["src/valor_lite/classification/evaluator.py:Evaluator.compute_precision_recall", "src/valor_lite/classification/evaluator.py:Evaluator.compute_confusion_matrix", "src/valor_lite/classification/computation.py:compute_counts"]}
{"id": "C19", "title": "Classification confusion matrix accounts for every ground truth", "statement": "With hardmax, for the confusion matrix at each threshold: for every ground-truth label the row sum plus the unmatched ground truths equals the number of ground truths with that label.", "quantifier": "every data set, every list of thresholds", "why_tests_cant": "Conservation law over all inputs.", "anchors": ["src/valor_lite/classification/computation.py:compute_pair_classifications", "src/valor_lite/classification/computation.py:compute_confusion_matrix"]}
{"id": "C20", "title": "Confusion matrix at a threshold does not depend on the other requested thresholds", "statement": "The confusion matrix (and examples) reported for threshold s is the one obtained when asking for s alone.", "quantifier": "every data set, every list of thresholds in every order", "why_tests_cant": "The mask is accumulated across loop iterations; only non-ascending lists reveal it.", "anchors": ["src/valor_lite/classification/computation.py:compute_pair_classifications"]}
{"id": "C21", "title": "ROC AUC is the probability that a positive outranks a negative", "statement": "If every ground truth is among the candidates and the highest score given to the label is not exactly 0, the reported ROCAUC of a label equals (#concordant pairs + 1/2 #tied pairs)/(#positives * #negatives) and hence lies in [0,1].", "quantifier": "every data set with distinct candidates, at least one positive and one negative for the label, in memory or in any curve split that does not isolate the origin", "why_tests_cant": "Identity between a trapezoid sum over a compressed curve and a pair count, for all inputs.", "anchors": ["src/valor_lite/classification/evaluator.py:Builder._create_rocauc_intermediate", "src/valor_lite/classification/computation.py:compute_rocauc"]}
{"id": "C22", "title": "ROC AUC does not depend on how the curve is split into files", "statement": "The reported ROCAUC is the same for every split of the stored curve into files.", "quantifier": "every curve and every split", "why_tests_cant": "Only a split right after a curve point at the origin shows the difference.", "anchors": ["src/valor_lite/classification/computation.py:compute_rocauc"]}
{"id": "C23", "title": "Loader/evaluator protocol", "statement": "finalize succeeds at most once per loader, an empty loader cannot be finalized, and an evaluator sees exactly the data added before finalize.", "quantifier": "every sequence of add_data / finalize calls", "why_tests_cant": "History property.", "anchors": ["src/valor_lite/classification/evaluator.py:Builder.finalize", "src/valor_lite/object_detection/evaluator.py:Builder.finalize", "src/valor_lite/semantic_segmentation/evaluator.py:Builder.finalize"]}
{"id": "C24", "title": "Filtering keeps exactly what was asked for", "statement": "Evaluator.filter keeps exactly the selected datums, and inside them exactly the selected ground truths and predictions; everything else disappears, nothing new appears.", "quantifier": "every data set and every combination of datum / ground-truth / prediction filters", "why_tests_cant": "Filter expressions are arbitrary predicates.", "anchors": ["src/valor_lite/classification/evaluator.py:Evaluator.filter", "src/valor_lite/object_detection/evaluator.py:Evaluator.filter"]}
{"id": "C25", "title": "Bounding-box IoU is a similarity in [0,1]", "statement": "IoU is symmetric, lies in [0,1], is 1 for identical boxes of positive area, 0 for boxes with disjoint interiors, and equals area(intersection)/area(union).", "quantifier": "every pair of axis-aligned boxes", "why_tests_cant": "Geometric identity over all coordinates.", "anchors": ["src/valor_lite/object_detection/computation.py:compute_bbox_iou"]}
{"id": "C26", "title": "Bitmask IoU is |intersection| / |union|", "statement": "For every pair of masks of equal shape the reported IoU is the number of common pixels over the number of pixels in either mask, symmetric and in [0,1], 0 when both are empty.", "quantifier": "every pair of masks of every size", "why_tests_cant": "Universal identity over all masks.", "anchors": ["src/valor_lite/object_detection/computation.py:compute_bitmask_iou"]}
{"id": "C27", "title": "Each prediction enters the detection counts at most once per label", "statement": "TP + FP of a label is the number of predictions carrying that label with a sufficient score; for the count each prediction is paired with the ground truth of that label it overlaps most, if it overlaps any.", "quantifier": "every data set, evaluator of it, datum filter and threshold pair", "why_tests_cant": "Depends on tie-breaking and duplicates in all tables.", "anchors": ["src/valor_lite/object_detection/computation.py:rank_pairs"]}
{"id": "C28", "title": "One true positive per ground truth", "statement": "At every positive IoU threshold TP of a label is the number of its ground truths that some prediction of the label with a sufficient score detects (sufficient overlap, and no other ground truth of the label overlapped more); in particular it never exceeds the number of ground truths.", "quantifier": "every data set, evaluator of it, datum filter and threshold pair", "why_tests_cant": "The code replaces a per-threshold matching by a single boundary per row; equivalence needs all thresholds.", "anchors": ["src/valor_lite/object_detection/computation.py:calculate_ranking_boundaries", "src/valor_lite/object_detection/computation.py:compute_counts"]}
{"id": "C29", "title": "Detection counts are conserved", "statement": "TP + FN equals the number of ground truths of the label, FN is never negative, and for single-label predictions TP + FP equals the number of predictions of the label with a sufficient score.", "quantifier": "every data set, evaluator of it, datum filter and threshold pair", "why_tests_cant": "Conservation over all inputs.", "anchors": ["src/valor_lite/object_detection/computation.py:compute_counts", "src/valor_lite/object_detection/evaluator.py:Evaluator.compute_precision_recall"]}
{"id": "C30", "title": "Detection counts are monotone in the thresholds", "statement": "Raising the IoU threshold or the score threshold never increases TP; raising the score threshold never increases TP+FP.", "quantifier": "every data set, evaluator of it, datum filter and pairs of thresholds", "why_tests_cant": "Relational property.", "anchors": ["src/valor_lite/object_detection/computation.py:compute_counts"]}
{"id": "C31", "title": "Detection counts, precision-recall curve and AP do not depend on storage", "statement": "Two evaluators of the same data, in memory or in files, with any batch and file sizes and any grouping of the add_data calls, report the same label numbering, counts, precision-recall curves, AP and mAP.", "quantifier": "every data set, every pair of evaluators of it, datum filter and thresholds", "why_tests_cant": "Relational over all splits.", "anchors": ["src/valor_lite/object_detection/computation.py:compute_counts", "src/valor_lite/object_detection/evaluator.py:Evaluator.compute_precision_recall"]}
{"id": "C32", "title": "AP is the 101-point interpolated average precision", "statement": "AP of a label at an IoU threshold is the mean over r=0,0.01,...,1 of the maximum precision attained at recall >= r along the predictions of the label in descending score order, where a prediction is correct if it is the first to claim its ground truth; the precision-recall curve lists these maxima.", "quantifier": "every data set, evaluator of it, datum filter and positive IoU threshold", "why_tests_cant": "Equality of a binned running maximum with the textbook definition for all tables.", "anchors": ["src/valor_lite/object_detection/computation.py:compute_counts", "src/valor_lite/object_detection/computation.py:compute_average_precision", "src/valor_lite/object_detection/computation.py:compute_average_recall"]}
{"id": "C33", "title": "The confusion matrix uses one one-to-one best-first matching per image", "statement": "For each image there is one matching of predictions with ground truths - one-to-one, made of overlapping pairs, every overlapping pair either taken or blocked by one that is not worse - such that every cell of the confusion matrix and every example list at every threshold pair is determined by it; it is unique when competing pairs do not tie.", "quantifier": "every data set, evaluator of it, datum filter and threshold pair", "why_tests_cant": "Matching invariants over all pair lists.", "anchors": ["src/valor_lite/object_detection/computation.py:mask_pairs_greedily"]}
{"id": "C34", "title": "Membership test on pairs of annotation ids is exact", "statement": "Testing whether a (ground truth, prediction) pair belongs to a set of pairs through packed 64-bit integers gives the same answer as set membership, also when one side of the tested pair is absent.", "quantifier": "every set of pairs and every tested pair of ids below 2^31 or absent", "why_tests_cant": "Packing collisions occur only outside a range.", "anchors": ["src/valor_lite/object_detection/computation.py:_isin"]}
{"id": "C35", "title": "Detection confusion matrix accounts for every prediction and ground truth", "statement": "For each threshold pair: column sum plus unmatched predictions equals the number of predictions with that label and score at least the threshold; row sum plus unmatched ground truths equals the number of ground truths with that label.", "quantifier": "every pair table and every thresholds pair", "why_tests_cant": "Conservation law over all inputs, fails only for multi-label predictions.", "anchors": ["src/valor_lite/object_detection/computation.py:compute_pair_classifications", "src/valor_lite/object_detection/computation.py:compute_confusion_matrix"]}
{"id": "C36", "title": "The detection loader records every ground truth and prediction", "statement": "Every ground truth, every (prediction, label, score) and every overlapping pair with its IoU appears in a stored row, no row mentions anything else, and the labels of the evaluator are exactly the labels of the data; any data with at least one annotation can be evaluated.", "quantifier": "every data set, every back end, batch size, file size and grouping of calls", "why_tests_cant": "Three-way branch on empty ground truths / predictions and overlap structure, for all inputs.", "anchors": ["src/valor_lite/object_detection/loader.py:Loader._add_data"]}
{"id": "C37", "title": "Segmentation pixel conservation", "statement": "For disjoint masks with distinct labels the counts stored for a datum sum to the number of pixels of the image, and each count is the number of pixels with that (ground-truth label, predicted label) pair.", "quantifier": "every image size and every family of masks", "why_tests_cant": "Inclusion-exclusion arithmetic for all masks.", "anchors": ["src/valor_lite/semantic_segmentation/computation.py:compute_intermediates", "src/valor_lite/semantic_segmentation/loader.py:Loader.add_data"]}
{"id": "C38", "title": "Mask validation makes masks disjoint", "statement": "After constructing a Segmentation no pixel belongs to two ground-truth masks or to two prediction masks.", "quantifier": "every list of masks", "why_tests_cant": "Fails only for three or more masks with a chain of overlaps.", "anchors": ["src/valor_lite/semantic_segmentation/annotation.py:Segmentation._validate_bitmasks"]}
{"id": "C39", "title": "Segmentation metrics are what they claim", "statement": "Per-label precision, recall, F1, IoU and global accuracy equal their set-theoretic definitions on the pixels of the whole data set and lie in [0,1]; mIoU is the mean of the IoUs.", "quantifier": "every data set", "why_tests_cant": "Universal identity.", "anchors": ["src/valor_lite/semantic_segmentation/computation.py:compute_metrics", "src/valor_lite/semantic_segmentation/evaluator.py:Evaluator.compute_precision_recall_iou"]}
{"id": "C40", "title": "Segmentation filtering preserves pixels", "statement": "Filtering by ground-truth or prediction predicates re-labels pixels as background but never changes the total number of pixels of the kept datums.", "quantifier": "every data set and all filters", "why_tests_cant": "Universal over filter predicates.", "anchors": ["src/valor_lite/semantic_segmentation/evaluator.py:Evaluator.filter"]}
{"id": "C41", "title": "LLM retries are bounded and stop at the first valid answer", "statement": "A guided metric makes at most 1+retries attempts, returns the result of the first attempt that does not raise an invalid-response error, returns an Error metric exactly when all attempts were invalid, and lets other exceptions through.", "quantifier": "every retry count and every sequence of responses", "why_tests_cant": "Unbounded response histories.", "anchors": ["src/valor_lite/text_generation/manager.py:llm_guided_metric"]}
{"id": "C42", "title": "LLM-guided scores are in [0,1]", "statement": "Every score computed from validated LLM responses is a defined number in [0,1] (1..5 for summary coherence).", "quantifier": "every response that passes validation, every number of statements and contexts", "why_tests_cant": "The responses are adversarial free text.", "anchors": ["src/valor_lite/text_generation/computation.py", "src/valor_lite/text_generation/llm/generation.py"]}
{"id": "C43", "title": "Context precision is the mean of precision@k over relevant ranks", "statement": "With verdicts v1..vn, the score is the average of precision@k over the positions k of relevant contexts (0 if there is none); with several ground truths a context counts as relevant if it is relevant for any.", "quantifier": "every verdict sequence and number of ground truths", "why_tests_cant": "Universal identity.", "anchors": ["src/valor_lite/text_generation/computation.py:calculate_context_precision"]}
{"id": "C44", "title": "Validation accepts exactly the well-formed responses", "statement": "validate_statements / validate_verdicts raise exactly when the response is not of the documented shape; nothing malformed reaches the metric computations.", "quantifier": "every JSON value", "why_tests_cant": "All JSON shapes.", "anchors": ["src/valor_lite/text_generation/llm/validators.py"]}
{"id": "C45", "title": "JSON extraction takes the outermost braces and the first signed integer", "statement": "trim_and_load_json parses exactly the text from the first opening to the last closing brace; find_first_signed_integer returns the value of the first maximal signed digit string.", "quantifier": "every response text", "why_tests_cant": "All strings.", "anchors": ["src/valor_lite/text_generation/llm/utilities.py"]}
{"id": "C46", "title": "Metadata fields round-trip and never shadow reserved fields", "statement": "encode/decode of metadata fields is the identity for distinct names; a schema is rejected exactly when a metadata field has a reserved name.", "quantifier": "every list of metadata fields", "why_tests_cant": "Universal over field lists.", "anchors": ["src/valor_lite/classification/shared.py:generate_schema", "src/valor_lite/classification/shared.py:encode_metadata_fields"]}
{"id": "C47", "title": "Examples agree with the confusion matrix", "statement": "The confusion matrix with examples has, in each cell, exactly one example per counted pair, and its counts equal those of the plain confusion matrix.", "quantifier": "every data set and threshold list", "why_tests_cant": "Relational over two code paths for all inputs.", "anchors": ["src/valor_lite/classification/utilities.py:_unpack_confusion_matrix_with_examples", "src/valor_lite/object_detection/utilities.py"]}
{"id": "C48", "title": "Float recall binning places a recall of k/100 into bin k", "statement": "A recall that equals k/100 is counted as having reached recall level k/100.", "quantifier": "every true-positive count and ground-truth count", "why_tests_cant": "Binary rounding error at isolated fractions.", "anchors": ["src/valor_lite/object_detection/computation.py:compute_counts"]}
{"id": "C49", "title": "Ranked order is independent of storage", "statement": "The ranked rows of an evaluator are the same rows in the same order whether the data was held in memory or in files, for all batch and file sizes and groupings of calls.", "quantifier": "every data set and every pair of evaluators of it", "why_tests_cant": "Relational; per-file ranking plus merge against global ranking.", "anchors": ["src/valor_lite/object_detection/evaluator.py:Builder._rank", "src/valor_lite/object_detection/computation.py:rank_table", "src/valor_lite/cache/compute.py:sort"]}
{"id": "C50", "title": "Accuracy is the fraction of correctly classified datums", "statement": "Accuracy at a threshold is the number of correctly classified selected datums over the number of selected datums.", "quantifier": "every data set, every datum filter", "why_tests_cant": "Only a proper datum filter reveals the denominator used.", "anchors": ["src/valor_lite/classification/evaluator.py:Evaluator.compute_precision_recall", "src/valor_lite/classification/computation.py:compute_accuracy"]}
{"id": "C51", "title": "In-place sorting of a cache", "statement": "sort_by on an in-memory cache leaves exactly its rows in stable sorted order; on a file cache it stably sorts each file separately and neither moves rows between files nor changes the file order.", "quantifier": "every write history, sort specification and directory listing order", "why_tests_cant": "Universal over histories; pending buffered rows must be included.", "anchors": ["src/valor_lite/cache/ephemeral.py:MemoryCacheWriter.sort_by", "src/valor_lite/cache/persistent.py:FileCacheWriter.sort_by"]}
{"id": "C52", "title": "Per-datum examples list exactly the outcome of the datum", "statement": "compute_examples returns one entry per datum and threshold; the ground truth is listed as true positive exactly when it is predicted and as false negative otherwise; the false positives are exactly the other predicted labels, each once.", "quantifier": "every data set, list of thresholds, hardmax setting and datum-aligned fragmentation", "why_tests_cant": "Universal over data sets, thresholds and file splits.", "anchors": ["src/valor_lite/classification/evaluator.py:Evaluator.compute_examples", "src/valor_lite/classification/utilities.py:unpack_examples"]}
{"id": "C53", "title": "Finalizing a detection loader twice does not change the reports", "statement": "Calling finalize again on the same loader gives an evaluator that reports the same as the first one.", "quantifier": "every data set, threshold pair and datum filter", "why_tests_cant": "Only a second call on the same loader shows which rows are written again.", "anchors": ["src/valor_lite/object_detection/evaluator.py:Builder.finalize", "src/valor_lite/object_detection/evaluator.py:Builder._rank"]}
{"id": "C54", "title": "The detection confusion matrix does not depend on storage", "statement": "Two evaluators of the same data report the same confusion matrix, including when predictions tie.", "quantifier": "every data set, every pair of evaluators of it, datum filter and threshold pair", "why_tests_cant": "Relational over storage layouts; ties are broken by row order, which differs between layouts.", "anchors": ["src/valor_lite/object_detection/evaluator.py:Evaluator.compute_confusion_matrix", "src/valor_lite/object_detection/computation.py:mask_pairs_greedily", "src/valor_lite/object_detection/computation.py:compute_pair_classifications"]}
{"id": "C55", "title": "Detection reports are complete, and their values are in range", "statement": "A report has exactly one entry for every label of the data, score threshold and IoU threshold; precision, recall, F1, AP, mAP, AR, mAR and their averages over IoU thresholds lie in [0,1]; the precision-recall curve has 101 values, never increases, and its mean is AP.", "quantifier": "every data set, evaluator of it, datum filter and lists of thresholds", "why_tests_cant": "Universal over data sets and threshold lists; division by zero and empty labels are corner cases.", "anchors": ["src/valor_lite/object_detection/evaluator.py:Evaluator.compute_precision_recall", "src/valor_lite/object_detection/utilities.py:unpack_precision_recall_into_metric_lists", "src/valor_lite/object_detection/computation.py:compute_average_precision"]}
{"id": "C56", "title": "Segmentation reports do not depend on storage", "statement": "Two evaluators of the same data that keep the same datums and labels give identical reports, whether held in memory or in files, built in one or many calls, loaded or filtered; filtering datums first equals passing the datum filter to the metric.", "quantifier": "every data set, every pair of evaluators of it, every chain of filters", "why_tests_cant": "Relational over storage layouts and call histories.", "anchors": ["src/valor_lite/semantic_segmentation/evaluator.py:Evaluator.compute_precision_recall_iou", "src/valor_lite/semantic_segmentation/evaluator.py:Evaluator.filter", "src/valor_lite/semantic_segmentation/evaluator.py:Builder.finalize"]}
{"id": "C57", "title": "Segmentation info counts are exact", "statement": "get_info reports the number of labels, of selected datums, of their pixels, and of the pixels carrying a selected ground-truth and predicted label.", "quantifier": "every data set, evaluator and combination of filters", "why_tests_cant": "Counts are summed over row tables whose split depends on the storage.", "anchors": ["src/valor_lite/semantic_segmentation/shared.py:extract_counts", "src/valor_lite/semantic_segmentation/evaluator.py:Evaluator.get_info"]}
{"id": "C58", "title": "Finalizing a segmentation loader", "statement": "finalize raises EmptyCacheError exactly if no datum was added; calling it again without adding data returns an equal evaluator.", "quantifier": "every sequence of add_data and finalize calls, in memory and in files", "why_tests_cant": "Universal over call histories.", "anchors": ["src/valor_lite/semantic_segmentation/evaluator.py:Builder.finalize"]}
{"id": "C59", "title": "Metadata filters select annotations by their own metadata", "statement": "Filtering ground truths (predictions) on a metadata field keeps exactly the pixels of ground truths (predictions) whose own metadata, or else the datum's, satisfy the condition.", "quantifier": "every data set and condition on a field", "why_tests_cant": "Rows merge the metadata of datum, ground truth and prediction; only particular overlaps show it.", "anchors": ["src/valor_lite/semantic_segmentation/loader.py:Loader.add_data", "src/valor_lite/semantic_segmentation/evaluator.py:Evaluator.filter"]}
{"id": "C60", "title": "Constructing a Segmentation leaves the caller's arrays alone", "statement": "Constructing a Segmentation does not change the mask arrays passed to it, and the result does not depend on arrays being shared between masks.", "quantifier": "every list of masks and every sharing of arrays", "why_tests_cant": "Aliasing between masks.", "anchors": ["src/valor_lite/semantic_segmentation/annotation.py:Segmentation._validate_bitmasks"]}
{"id": "C61", "title": "A segmentation evaluator keeps its data", "statement": "An evaluator keeps reporting on the data it was made from, whatever is done with the loader afterwards.", "quantifier": "every sequence of later calls", "why_tests_cant": "Needs histories that use a loader after an evaluator was made.", "anchors": ["src/valor_lite/semantic_segmentation/evaluator.py:Builder.finalize", "src/valor_lite/semantic_segmentation/evaluator.py:Evaluator.load"]}
{"id": "C62", "title": "A segmentation cache can be loaded again", "statement": "Loading the directory of an evaluator, filtered or not, gives an evaluator with the same reports.", "quantifier": "every data set, filter and directory listing order", "why_tests_cant": "Label ids are rediscovered from the rows that are left.", "anchors": ["src/valor_lite/semantic_segmentation/evaluator.py:Evaluator.load", "src/valor_lite/semantic_segmentation/shared.py:extract_labels"]}
{"id": "C63", "title": "LLM-guided scores count the yes verdicts", "statement": "Bias, toxicity, faithfulness, answer relevance, context relevance and hallucination are the share of yes among the verdicts the LLM gave, one per item it was asked about; context recall is the best share over the ground truths; summary coherence is the first integer of the answer.", "quantifier": "every client, every response and number of items, with the exact questions asked", "why_tests_cant": "Relates free-text exchanges of any length to the score.", "anchors": ["src/valor_lite/text_generation/computation.py", "src/valor_lite/text_generation/llm/generation.py"]}
{"id": "C64", "title": "Answer correctness is the best F1 over the ground truths", "statement": "The score is the greatest F1 of the TP/FP/FN lists over the ground truths (0 without any); TP and FP together must be as many as the predicted statements, FN at most as many as the ground truth's.", "quantifier": "every client, every list of ground truths", "why_tests_cant": "Universal over responses.", "anchors": ["src/valor_lite/text_generation/computation.py:calculate_answer_correctness", "src/valor_lite/text_generation/llm/generation.py:generate_answer_correctness_verdicts"]}
{"id": "C65", "title": "compute_all returns all metrics", "statement": "compute_all returns, for each of the twelve metric types, what the single method returns.", "quantifier": "every response, client and evaluator", "why_tests_cant": "Edge cases of contexts, and exceptions in the middle of a long conversation.", "anchors": ["src/valor_lite/text_generation/manager.py:Evaluator.compute_all"]}
{"id": "C66", "title": "The number of LLM calls is bounded", "statement": "A metric makes at most 1+retries times a fixed number of calls, linear in the number of ground truths; compute_all at most (1+retries)(12+5g).", "quantifier": "every client (also one that always answers badly), retry count and number of ground truths", "why_tests_cant": "Worst case over all conversations.", "anchors": ["src/valor_lite/text_generation/manager.py", "src/valor_lite/text_generation/computation.py"]}
{"id": "C67", "title": "BLEU and ROUGE post-processing", "statement": "BLEU is the library's value with values below 1e-9 and NaN replaced by 0; compute_rouge gives one metric per requested type with the library's value, not below 0.", "quantifier": "every library result, list of types and weights", "why_tests_cant": "Universal over library results, including infinities and NaN.", "anchors": ["src/valor_lite/text_generation/computation.py:calculate_rouge_scores", "src/valor_lite/text_generation/computation.py:calculate_sentence_bleu", "src/valor_lite/text_generation/manager.py:Evaluator.compute_rouge"]}
{"id": "C68", "title": "Misuse is refused before any LLM call", "statement": "Without a client, a model name or a needed context, a metric raises without calling the LLM; a seed together with retries is refused.", "quantifier": "every metric, evaluator and response", "why_tests_cant": "Quantifies over all methods and states.", "anchors": ["src/valor_lite/text_generation/manager.py:llm_guided_metric", "src/valor_lite/text_generation/manager.py:Evaluator.openai"]}
{"id": "C69", "title": "Retrying a deterministic client changes nothing", "statement": "If the answers depend on the question only, the first attempt decides the result whatever the retry count, and compute_all reports what the single methods report.", "quantifier": "every deterministic client, metric and retry count", "why_tests_cant": "Universal over clients.", "anchors": ["src/valor_lite/text_generation/manager.py:llm_guided_metric", "src/valor_lite/text_generation/manager.py:Evaluator.compute_all"]}
{"id": "C70", "title": "Client wrappers check messages, count tokens, refuse truncated answers", "statement": "Messages are accepted iff they are a list of dicts with string role and content; the evaluator's own always are; the OpenAI token totals are the sums of the usage of all calls; truncated or filtered answers are not returned.", "quantifier": "every JSON value, every conversation", "why_tests_cant": "Unbounded conversations and arbitrary API answers.", "anchors": ["src/valor_lite/text_generation/llm/integrations.py"]}
{"id": "C71", "title": "Context precision rewards order", "statement": "The score is 1 iff some context is relevant and none irrelevant precedes a relevant one; moving a relevant context up past an irrelevant one raises it.", "quantifier": "every list of contexts and verdicts", "why_tests_cant": "Universal over rankings.", "anchors": ["src/valor_lite/text_generation/computation.py:calculate_context_precision"]}
{"id": "C72", "title": "A detection cache can be loaded again", "statement": "Evaluator.load on the directory of a finalized loader or of a filtered evaluator gives back the same evaluator, whatever the order in which the directory is listed.", "quantifier": "every data set, batch and file size, filter and listing order", "why_tests_cant": "The on-disk states are unbounded.", "anchors": ["src/valor_lite/object_detection/evaluator.py:Evaluator.load", "src/valor_lite/object_detection/shared.py:extract_labels", "src/valor_lite/object_detection/shared.py:extract_groundtruth_count_per_label"]}
{"id": "C73", "title": "Detection filters compose", "statement": "Filters commute and combine: evaluators that leave the same part of the data report the same metrics, whether the parts were removed at once, one after the other, in another order, or at the metric call.", "quantifier": "every data set, every sequence of filters, both back ends", "why_tests_cant": "Quantifies over sequences of arbitrary predicates.", "anchors": ["src/valor_lite/object_detection/evaluator.py:Evaluator.filter"]}
{"id": "C74", "title": "A filtered detection evaluator reports like one built from the kept data", "statement": "Every metric of a filtered evaluator equals the metric of an evaluator built from the data reduced to the kept ground truths and predictions.", "quantifier": "every data set (equal overlaps and scores included), every sequence of filters, every selection, threshold and label", "why_tests_cant": "Relates two executions over arbitrary data and predicates.", "anchors": ["src/valor_lite/object_detection/evaluator.py:Evaluator.filter", "src/valor_lite/object_detection/evaluator.py:Evaluator.compute_precision_recall"]}
{"id": "C75", "title": "Detection info counts the kept data", "statement": "get_info reports the numbers of datums, ground truths and predictions of the (filtered, selected) data, each counted once.", "quantifier": "every data set, sequence of filters and selection", "why_tests_cant": "Distinct counts over unbounded tables.", "anchors": ["src/valor_lite/object_detection/evaluator.py:Evaluator.get_info", "src/valor_lite/object_detection/shared.py:extract_counts"]}
{"id": "C76", "title": "Scores of the precision-recall curve are recall thresholds", "statement": "The score listed at recall level k/100 (k >= 1) of a label's precision-recall curve is the largest score threshold at which the reported recall is at least k/100, and 0 if none is; the first entry is the best score of the label; the list has 101 entries, does not increase and does not depend on storage or batching.", "quantifier": "every data set, selection, label, IoU threshold, level and score threshold", "why_tests_cant": "Relates two independently computed metrics over unbounded rankings.", "anchors": ["src/valor_lite/object_detection/computation.py:compute_counts", "src/valor_lite/object_detection/computation.py:compute_average_precision", "src/valor_lite/object_detection/utilities.py:unpack_precision_recall_into_metric_lists", "src/valor_lite/object_detection/metric.py:Metric.precision_recall_curve"]}
{"id": "C77", "title": "Points of the precision-recall curve are operating points", "statement": "The precision listed at recall level k/100 is the best precision over all score thresholds with recall at least k/100, and it is reached at the score listed with it.", "quantifier": "every data set, selection, label, IoU threshold, level and score threshold", "why_tests_cant": "Maximum over an unbounded set of thresholds.", "anchors": ["src/valor_lite/object_detection/computation.py:compute_counts", "src/valor_lite/object_detection/computation.py:compute_average_precision", "src/valor_lite/object_detection/metric.py:Metric.precision_recall_curve"]}
{"id": "C78", "title": "A filtered classification evaluator reports on what remains", "statement": "After any sequence of filters, counts, confusion matrices and accuracy are those of the remaining candidates of the remaining datums, where the winner of a datum is that of the unfiltered input; the label numbering never changes.", "quantifier": "every data set with distinct candidates, every sequence of filters on both back ends, every selection, threshold list and label", "why_tests_cant": "Quantifies over sequences of arbitrary predicates and two storage back ends.", "anchors": ["src/valor_lite/classification/evaluator.py:Evaluator.filter", "src/valor_lite/classification/evaluator.py:Evaluator.compute_precision_recall", "src/valor_lite/classification/evaluator.py:Evaluator.compute_confusion_matrix", "src/valor_lite/classification/shared.py:extract_labels"]}
{"id": "C79", "title": "A filtered classification evaluator reports like one built from the kept data", "statement": "Counts, confusion matrices and accuracy of a filtered evaluator equal those of an evaluator built from the input without the filtered candidates; labels of which nothing is left report zeros.", "quantifier": "every data set with distinct candidates, every sequence of filters, threshold list and label", "why_tests_cant": "Relates two executions over arbitrary data and predicates.", "anchors": ["src/valor_lite/classification/evaluator.py:Evaluator.filter", "src/valor_lite/classification/evaluator.py:Evaluator.compute_precision_recall", "src/valor_lite/classification/evaluator.py:Evaluator.compute_confusion_matrix"]}
{"id": "C80", "title": "Loading a stored classification evaluator gives it back", "statement": "Evaluator.load on the path of a file based evaluator, built or filtered, yields an evaluator with the same rows, curve and labels, in whatever order the directory lists its files; its labels can always be counted.", "quantifier": "every data set, batch size, file size, filter and listing order", "why_tests_cant": "Directory listing order is not controlled by tests.", "anchors": ["src/valor_lite/classification/evaluator.py:Evaluator.load", "src/valor_lite/classification/evaluator.py:Evaluator.filter", "src/valor_lite/classification/shared.py:extract_labels", "src/valor_lite/classification/shared.py:extract_groundtruth_count_per_label"]}
{"id": "C81", "title": "Classification info and empty filters", "statement": "get_info reports the number of remaining candidates, the number of labels of the original input and the number of datums with a remaining selected candidate; filter raises EmptyCacheError exactly when no candidate remains.", "quantifier": "every data set with distinct candidates, every sequence of filters on both back ends, every selection", "why_tests_cant": "Distinct counts over unbounded tables; arbitrary predicates.", "anchors": ["src/valor_lite/classification/evaluator.py:Evaluator.get_info", "src/valor_lite/classification/evaluator.py:Evaluator.filter", "src/valor_lite/classification/shared.py:extract_counts"]}
{"id": "C82", "title": "ROCAUC of a filtered classification evaluator", "statement": "The ROCAUC of a label after filtering is the Mann-Whitney statistic of its remaining candidates, equals that of an evaluator built from the kept data and lies in [0,1]; a label of which nothing is left reports 0; the mean is that of the kept data.", "quantifier": "every data set with distinct candidates, every sequence of filters on both back ends, every label", "why_tests_cant": "Relates two executions over arbitrary data and predicates, and an area to a pair count.", "anchors": ["src/valor_lite/classification/evaluator.py:Evaluator.filter", "src/valor_lite/classification/evaluator.py:Evaluator.compute_rocauc", "src/valor_lite/classification/computation.py:compute_rocauc"]}
{"id": "C83", "title": "Classification reports list every label and threshold once", "statement": "compute_precision_recall returns one accuracy per score threshold in the given order and, for every label of the input and every threshold, exactly one Counts, Precision, Recall and F1 entry, whose values are those of the counts of the data; precision, recall and F1 lie in [0,1], as does the accuracy with hardmax; compute_confusion_matrix returns one matrix per threshold with an entry for every pair of labels; compute_rocauc lists every label once; empty threshold lists raise ValueError.", "quantifier": "every data set with distinct candidates, every sequence of filters on both back ends, every list of thresholds, every datum expression", "why_tests_cant": "The label map is recovered from the cache in an order that depends on batching; any mismatch between array axes and label numbers shows only for some orders.", "anchors": ["src/valor_lite/classification/utilities.py:unpack_precision_recall", "src/valor_lite/classification/utilities.py:unpack_rocauc", "src/valor_lite/classification/utilities.py:unpack_confusion_matrix", "src/valor_lite/classification/evaluator.py:Evaluator.compute_precision_recall", "src/valor_lite/classification/evaluator.py:Evaluator.compute_confusion_matrix", "src/valor_lite/classification/evaluator.py:Evaluator.compute_rocauc"]}
{"id": "C84", "title": "Classification reports do not depend on the order of the data or the storage", "statement": "Two evaluators holding the same datums, added in different orders, with different batching and different back ends, report the same metrics, confusion matrices and info, label by label; ROCAUC and its mean agree whenever no curve is cut right behind its origin (in particular in memory) or its best score is not shared by a match and a mismatch.", "quantifier": "every pair of orders of every data set, every batching, both back ends, every filter, threshold list and datum expression", "why_tests_cant": "All permutations and all splits into batches and files.", "anchors": ["src/valor_lite/classification/evaluator.py:Evaluator.compute_precision_recall", "src/valor_lite/classification/evaluator.py:Evaluator.compute_confusion_matrix", "src/valor_lite/classification/evaluator.py:Evaluator.compute_rocauc", "src/valor_lite/classification/evaluator.py:Evaluator.get_info", "src/valor_lite/classification/loader.py:Loader.add_data"]}
{"id": "C85", "title": "Classification reports of parts add up", "statement": "The counts, confusion matrix entries, unmatched ground truths, number of rows and number of datums reported for the union of two data sets are the sums of those reported for the parts (0 for a label a part does not have), and its accuracy is the average of theirs weighted by the number of datums.", "quantifier": "every two data sets and their concatenation, every filter, both back ends, every threshold", "why_tests_cant": "Relates three evaluators with different label numberings.", "anchors": ["src/valor_lite/classification/evaluator.py:Evaluator.compute_precision_recall", "src/valor_lite/classification/evaluator.py:Evaluator.compute_confusion_matrix", "src/valor_lite/classification/evaluator.py:Evaluator.get_info"]}
{"id": "C86", "title": "Object detection reports do not depend on the order of the images or the storage", "statement": "Two evaluators holding the same images, added in different orders, with different batching and different back ends, know the same labels and report, label by label, the same ground-truth counts, TP, FP, FN, precision, recall, F1, average recall and its mean, the same list of counts up to order, the same confusion matrix and the same examples of every image.", "quantifier": "every pair of orders of every data set with distinct images, every batching, both back ends, every threshold list and datum selection", "why_tests_cant": "All permutations and all splits into batches and files; label numbers and tie-breaks depend on the order.", "anchors": ["src/valor_lite/object_detection/evaluator.py:Evaluator.compute_precision_recall", "src/valor_lite/object_detection/evaluator.py:Evaluator.compute_confusion_matrix", "src/valor_lite/object_detection/evaluator.py:Evaluator.compute_examples", "src/valor_lite/object_detection/computation.py:rank_pairs", "src/valor_lite/object_detection/computation.py:compute_counts"]}
{"id": "C87", "title": "Average precision does not depend on the order of the images", "statement": "AP, mAP, their averages over IoU thresholds and the precision-recall curve are the same for two evaluators holding the same images in different orders, provided no score is given to the same label in two images; with shared scores the image added first is ranked first and AP changes.", "quantifier": "every pair of orders of every data set, every batching, both back ends, every IoU threshold", "why_tests_cant": "The dependence on insertion order appears only for particular ties.", "anchors": ["src/valor_lite/object_detection/computation.py:compute_average_precision", "src/valor_lite/object_detection/computation.py:compute_counts", "src/valor_lite/object_detection/evaluator.py:Evaluator.compute_precision_recall"]}
{"id": "C88", "title": "Object detection reports of parts add up", "statement": "The ground-truth counts, TP, FP, FN, confusion matrix cells, unmatched ground truths and unmatched predictions reported for the union of two data sets are the sums of those reported for the parts (0 for a label a part does not have), and the union knows exactly the labels of the parts.", "quantifier": "every two data sets and their concatenation, every batching, both back ends, every threshold and datum selection", "why_tests_cant": "Relates three evaluators with different label numberings over arbitrary data.", "anchors": ["src/valor_lite/object_detection/evaluator.py:Evaluator.compute_precision_recall", "src/valor_lite/object_detection/evaluator.py:Evaluator.compute_confusion_matrix", "src/valor_lite/object_detection/computation.py:compute_counts", "src/valor_lite/object_detection/computation.py:compute_confusion_matrix"]}
{"id": "C89", "title": "Segmentation reports do not depend on the order of the data or the storage", "statement": "Two evaluators showing the same view of the same datums, added in different orders and obtained in different ways (memory, files, loaded, filtered), report the same accuracy and mean IoU and, label by label and cell by cell, the same precision, recall, F1, IoU, unmatched ratios and confusion matrix; only the order of the lists may differ.", "quantifier": "every pair of orders of every data set with disjoint masks, every batching, both back ends, every datum expression", "why_tests_cant": "All permutations and all splits into batches and files; label numbers depend on the order.", "anchors": ["src/valor_lite/semantic_segmentation/evaluator.py:Evaluator.compute_precision_recall_iou", "src/valor_lite/semantic_segmentation/loader.py:Loader.add_data", "src/valor_lite/semantic_segmentation/loader.py:Loader.add_data"]}
{"id": "C90", "title": "Segmentation info does not depend on the order and adds up over parts", "statement": "get_info reports the same numbers of labels, datums, pixels, ground-truth pixels and predicted pixels for every order of the data, and for the union of two data sets the sums of those of the parts; the number of stored rows has neither property, because an image also gets rows for the labels of earlier images.", "quantifier": "every data set with disjoint masks, every split and order, every filter and expression", "why_tests_cant": "Relates several executions over arbitrary data.", "anchors": ["src/valor_lite/semantic_segmentation/evaluator.py:Evaluator.get_info", "src/valor_lite/semantic_segmentation/shared.py:extract_counts", "src/valor_lite/semantic_segmentation/loader.py:Loader.add_data"]}
{"id": "C91", "title": "Segmentation metrics of a union lie between those of its parts", "statement": "The accuracy of the union of two data sets is the average of theirs weighted by pixels; for every label of both, precision, recall, F1, IoU and the unmatched ratios of the union lie between the values of the parts, and equal the value of the only part that has the label; every confusion matrix cell lies between those of the parts (0 where not listed).", "quantifier": "every two data sets and their concatenation, every view and datum expression, both back ends", "why_tests_cant": "A statement about quotients of counts of three evaluators with different label numberings.", "anchors": ["src/valor_lite/semantic_segmentation/evaluator.py:Evaluator.compute_precision_recall_iou", "src/valor_lite/semantic_segmentation/evaluator.py:Evaluator.get_info"]}
{"id": "C92", "title": "Boxes, masks and polygons of the same shapes are evaluated alike", "statement": "Images whose shapes are boxes with corners on the pixel grid may be added as bounding boxes, as bitmasks with exactly the pixels of the boxes set, or as polygons with the outlines of the boxes: every IoU, and the state of the loader afterwards, is the same, also when kinds are mixed between calls.", "quantifier": "every list of calls, image size, number of annotations, rounding of the quotient, both back ends and every earlier state of the loader", "why_tests_cant": "The claim relates three input formats on all shapes; tests compare a few IoU values.", "anchors": ["src/valor_lite/object_detection/loader.py:Loader.add_bounding_boxes", "src/valor_lite/object_detection/loader.py:Loader.add_bitmasks", "src/valor_lite/object_detection/loader.py:Loader.add_polygons", "src/valor_lite/object_detection/computation.py:compute_bbox_iou", "src/valor_lite/object_detection/computation.py:compute_bitmask_iou", "src/valor_lite/object_detection/computation.py:compute_polygon_iou"]}
{"id": "C93", "title": "Moving an image does not change its evaluation", "statement": "Shifting, reflecting or turning by 90 degrees all boxes of an image together, by a different move for each image, leaves the loader in the same state as the original images; so does any rearrangement of the pixels of all masks of an image (flip, turn, crop of background, padding).", "quantifier": "every list of calls, every combination of moves, every permutation of pixels, both back ends", "why_tests_cant": "Metamorphic property over all moves and shapes.", "anchors": ["src/valor_lite/object_detection/computation.py:compute_bbox_iou", "src/valor_lite/object_detection/computation.py:compute_bitmask_iou", "src/valor_lite/object_detection/loader.py:Loader.add_bounding_boxes", "src/valor_lite/object_detection/loader.py:Loader.add_bitmasks"]}
{"id": "C94", "title": "The unit of length does not matter", "statement": "Multiplying all coordinates of an image by a positive factor (pixels, normalised coordinates) does not change any IoU, nor the state of the loader afterwards.", "quantifier": "every list of calls with boxes of positive area, every positive factor per image, both back ends", "why_tests_cant": "Metamorphic property over all factors; only small boxes reveal the absolute threshold of the division.", "anchors": ["src/valor_lite/object_detection/computation.py:compute_bbox_iou", "src/valor_lite/object_detection/loader.py:Loader.add_bounding_boxes"]}
{"id": "C95", "title": "A failing add leaves nothing behind", "statement": "Adding images with bitmasks fails exactly if some image of the call has ground truths and predictions whose masks do not all have the same two- or more-dimensional shape; then no image of the call is stored. A caller who catches the errors and goes on gets the evaluator of the calls that returned.", "quantifier": "every sequence of calls of all kinds, every earlier state, both back ends", "why_tests_cant": "Atomicity concerns all histories of failing and returning calls.", "anchors": ["src/valor_lite/object_detection/loader.py:Loader.add_bitmasks", "src/valor_lite/object_detection/computation.py:compute_bitmask_iou"]}
{"id": "C96", "title": "The overlap of a pair is the overlap of this pair", "statement": "Annotations and detections that the public classes accept, with scores on predictions only, meet the conditions of the properties about detection reports; the IoU used for a prediction and a ground truth is the common area divided by the joint area of these two shapes, for any numbers of annotations; an accepted mask has IoU 1 with itself.", "quantifier": "every image and pair of annotations, every sequence of calls, both back ends", "why_tests_cant": "Index arithmetic over matrices of all sizes.", "anchors": ["src/valor_lite/object_detection/annotation.py:BoundingBox", "src/valor_lite/object_detection/annotation.py:Bitmask", "src/valor_lite/object_detection/annotation.py:Detection", "src/valor_lite/object_detection/loader.py:Loader.add_bounding_boxes", "src/valor_lite/object_detection/loader.py:Loader.add_bitmasks"]}
{"id": "C97", "title": "Different requests give different prompts", "statement": "Two requests to the LLM that differ in what is asked, in the system prompt, or in any text or list of texts have different messages; what is asked for never depends on the texts.", "quantifier": "every pair of requests, texts with any characters, lists of any length", "why_tests_cant": "Injectivity quantifies over all pairs of texts, including those with quotes, backslashes, newlines and headings of the template.", "anchors": ["src/valor_lite/text_generation/llm/instructions.py:1-814", "src/valor_lite/text_generation/llm/generation.py:68-905"]}
{"id": "C98", "title": "The prompt shows the inputs", "statement": "The instruction ends with the inputs of the request, each below its heading and in the documented order: texts as they are, lists as Python list literals with exactly these strings; such a literal can be read back in one way only.", "quantifier": "every request, texts with any characters, lists of any length", "why_tests_cant": "Escaping must be right for every character and every list.", "anchors": ["src/valor_lite/text_generation/llm/instructions.py:1-814"]}
{"id": "C99", "title": "Only strings and the system prompt reach the LLM", "statement": "Every message of every guided metric, and of computing all metrics, carries the system prompt of the evaluator; its lists hold strings only, whatever the LLM answered before.", "quantifier": "every response, every client, every sequence of answers, every number of retries", "why_tests_cant": "The lists of later messages come from arbitrary earlier answers.", "anchors": ["src/valor_lite/text_generation/manager.py:Evaluator.compute_all", "src/valor_lite/text_generation/llm/generation.py:_generate", "src/valor_lite/text_generation/llm/validators.py"]}
{"id": "C100", "title": "Each guided metric looks at its documented inputs only", "statement": "Result, messages and final state of the client are the same for two responses that agree on the inputs the metric is documented to use, e.g. the response only for bias and toxicity, the query and the retrieved contexts only for context relevance.", "quantifier": "every pair of responses that agree on these inputs, every client", "why_tests_cant": "Independence of an input concerns all values of that input.", "anchors": ["src/valor_lite/text_generation/manager.py:Evaluator", "src/valor_lite/text_generation/computation.py"]}
{"id": "C101", "title": "Classification examples, page by page", "statement": "The examples of a page of any classification evaluator are those of the datums of that page of the remaining data, in the order in which they were added: one entry per datum and threshold, with the ground truth as true positive or false negative and the other predicted labels as false positives. Consecutive pages list everything exactly once; only an empty list of thresholds is refused.", "quantifier": "every data set with distinct candidates per datum, every sequence of filters, both back ends, any storage batches, limits, offsets, thresholds and filters on datums", "why_tests_cant": "Pages cut through arbitrary storage batches.", "anchors": ["src/valor_lite/classification/evaluator.py:Evaluator.compute_examples", "src/valor_lite/classification/utilities.py:unpack_examples", "src/valor_lite/cache/compute.py:paginate_index"]}
{"id": "C102", "title": "The classification confusion matrix with examples is exact", "statement": "For every threshold the reported dictionary has the labels of the data, each once, and every cell holds the number and the list, in the order in which they were added, of the datums of that ground truth for which that label is predicted, with its score; the unmatched ground truths are the remaining datums without a prediction. No lookup fails, and storage makes no difference.", "quantifier": "every data set with distinct candidates per datum, every sequence of filters, both back ends, any thresholds and filters on datums", "why_tests_cant": "The loop runs over two lists of unrelated length for arbitrary storage batches.", "anchors": ["src/valor_lite/classification/evaluator.py:Evaluator.compute_confusion_matrix_with_examples", "src/valor_lite/classification/utilities.py:unpack_confusion_matrix_with_examples"]}
{"id": "C103", "title": "The object detection confusion matrix is exact, ties included", "statement": "Within an image, overlapping pairs of a prediction and a ground truth are matched one-to-one in turn: best score first, then best overlap, then the ground truth and the prediction added first. Cell (g, p) of the confusion matrix at an IoU and a score threshold is the number of matched pairs with those labels that reach both thresholds; the unmatched counts are the ground truths, and the predicted labels that reach the score threshold, without such a match. The labels are those of the data, each once; only an empty list of thresholds is refused.", "quantifier": "every data set with distinct labels per prediction, equal scores and overlaps included, every sequence of filters, both back ends, any storage batches, thresholds and filters on datums", "why_tests_cant": "The result depends on the order of ties, which goes through a sort, storage batches and a merge.", "anchors": ["src/valor_lite/object_detection/evaluator.py:Evaluator.compute_confusion_matrix", "src/valor_lite/object_detection/computation.py:compute_pair_classifications", "src/valor_lite/object_detection/computation.py:compute_confusion_matrix", "src/valor_lite/object_detection/utilities.py:unpack_confusion_matrix"]}
{"id": "C104", "title": "Object detection examples, page by page", "statement": "The examples of a page are those of the images of that page of the remaining data, in the order in which they were added: for every IoU and every score threshold one entry with the pairs matched with the same label, the predictions matched with another label or with nothing (once per such label), and the ground truths matched with another label or with nothing, each list in the order of the input. Consecutive pages list everything exactly once; only an empty list of thresholds is refused.", "quantifier": "every data set with distinct labels per prediction, every sequence of filters, both back ends, any storage batches, limits, offsets, thresholds and filters on datums", "why_tests_cant": "Pages cut through arbitrary storage batches.", "anchors": ["src/valor_lite/object_detection/evaluator.py:Evaluator.compute_examples", "src/valor_lite/object_detection/utilities.py:unpack_examples", "src/valor_lite/cache/compute.py:paginate_index"]}
{"id": "C105", "title": "The object detection confusion matrix with examples is exact", "statement": "For every pair of thresholds the reported dictionary has the labels of the data, each once, and every cell lists the matched pairs (or the unmatched ground truths, predictions) of its labels by image and annotation, in the order of the input, with their number. No lookup fails, the counts are those of the confusion matrix without examples, and storage makes no difference.", "quantifier": "every data set with distinct labels per prediction, every sequence of filters, both back ends, any storage batches, thresholds and filters on datums", "why_tests_cant": "The loop runs over three lists of unrelated length for arbitrary storage batches.", "anchors": ["src/valor_lite/object_detection/evaluator.py:Evaluator.compute_confusion_matrix_with_examples", "src/valor_lite/object_detection/utilities.py:unpack_confusion_matrix_with_examples"]}
{"id": "C106", "title": "Classification metrics as documents", "statement": "compute_precision_recall, compute_rocauc, compute_confusion_matrix, compute_examples and compute_confusion_matrix_with_examples return exactly the expected metrics: the keys in order, under every key one metric per threshold or per label and threshold in order, filed under its own type, each with the value of the data and with parameters naming its threshold, hardmax and label, so that type and parameters identify a metric.", "quantifier": "every data set with distinct candidates per datum, every sequence of filters, both back ends, any thresholds, limits and filters on datums; identification of matrices for thresholds without repetition", "why_tests_cant": "The shape of the result depends on the number of labels and thresholds; tests look at single entries.", "anchors": ["src/valor_lite/classification/utilities.py:unpack_precision_recall", "src/valor_lite/classification/utilities.py:unpack_rocauc", "src/valor_lite/classification/utilities.py:unpack_confusion_matrix", "src/valor_lite/classification/utilities.py:unpack_examples", "src/valor_lite/classification/metric.py:Metric"]}
{"id": "C107", "title": "Object detection metrics as documents", "statement": "compute_precision_recall, compute_confusion_matrix, compute_examples and compute_confusion_matrix_with_examples return exactly the expected metrics: the keys in order, under every key one metric per threshold, label or combination in order, filed under its own type, each with the value computed for these and with parameters naming them, so that type and parameters identify a metric. An empty list of thresholds is refused.", "quantifier": "every accepted data set, every sequence of filters, both back ends, any thresholds, limits and filters on datums", "why_tests_cant": "The shape of the result depends on the number of labels and thresholds; tests look at single entries.", "anchors": ["src/valor_lite/object_detection/utilities.py:unpack_precision_recall_into_metric_lists", "src/valor_lite/object_detection/utilities.py:unpack_confusion_matrix", "src/valor_lite/object_detection/utilities.py:unpack_examples", "src/valor_lite/object_detection/metric.py:Metric"]}
{"id": "C108", "title": "Segmentation metrics as documents", "statement": "compute_precision_recall_iou returns exactly the expected metrics: accuracy, confusion matrix and mIOU, and precision, recall, F1 and IOU of every label, filed under their types, each with the value of the pixels; type and parameters identify a metric.", "quantifier": "every accepted data set, every sequence of filters, both back ends and filters on datums", "why_tests_cant": "The shape of the result depends on the number of labels.", "anchors": ["src/valor_lite/semantic_segmentation/utilities.py:unpack_precision_recall_iou_into_metric_lists", "src/valor_lite/semantic_segmentation/metric.py:Metric"]}
{"id": "C109", "title": "Metrics are separate objects", "statement": "The result of to_dict is a snapshot: it has the contents of the metric, no later change of anything else changes it, and changing it does not change the metric. Two metrics, of one call or of different calls, share no list or dictionary, so that changing one in place does not change another; inside one metric no list or dictionary is at two places.", "quantifier": "every metric, every report, every sequence of in-place changes; without sharing except for lists passed by the caller", "why_tests_cant": "Aliasing shows only after later changes; tests compare fresh results.", "anchors": ["src/valor_lite/schemas.py:BaseMetric.to_dict", "src/valor_lite/classification/utilities.py:unpack_precision_recall", "src/valor_lite/object_detection/metric.py:Metric", "src/valor_lite/semantic_segmentation/metric.py:Metric"]}
{"id": "C110", "title": "Metrics survive JSON", "statement": "Reading back the JSON text of a metric's to_dict gives an equal dictionary, provided the value is not NaN.", "quantifier": "every metric of every report; object detection examples just when they have no true positives", "why_tests_cant": "Depends on the types of all nested values for arbitrary reports.", "anchors": ["src/valor_lite/schemas.py:BaseMetric.to_dict", "src/valor_lite/classification/utilities.py:unpack_examples", "src/valor_lite/object_detection/utilities.py:unpack_examples", "src/valor_lite/semantic_segmentation/utilities.py:unpack_precision_recall_iou_into_metric_lists"]}
{"id": "C111", "title": "BLEU weights: defaults and reported parameters", "statement": "A call without weights uses four quarters whatever was done before; the weights a metric shows are those it was computed with. Each metric keeps the very list of its call, and a change in place shows in exactly the metrics that keep the changed list.", "quantifier": "every sequence of calls with default or own lists, of to_dict and of in-place changes; as long as lists held by metrics are not changed in place", "why_tests_cant": "The default list is one object shared by all calls, so only later calls show the effect.", "anchors": ["src/valor_lite/text_generation/manager.py:Evaluator.compute_sentence_bleu", "src/valor_lite/text_generation/manager.py:Evaluator.compute_all", "src/valor_lite/text_generation/metric.py:Metric.bleu"]}
{"id": "C112", "title": "Reported ratios are the exact ratios up to one rounding", "statement": "Each reported accuracy, precision, recall, IoU and unmatched ratio is the double nearest to the exact fraction of counts, so it lies in [0, 1], is 0 or 1 exactly when the fraction is, and a smaller fraction is never reported as a larger one; F1 is within 5 half ulps (relative) of the exact F1 and is 0 or 1 exactly when that is.", "quantifier": "every evaluator of either back end, filtered or not, every label, threshold and datum filter, totals up to 2^53 (F1 of classification and detection: up to 10^9)", "why_tests_cant": "Tests compare a few values with a tolerance; the bound must hold for all counts.", "anchors": ["src/valor_lite/classification/computation.py:compute_precision", "src/valor_lite/classification/computation.py:compute_f1_score", "src/valor_lite/object_detection/computation.py:compute_precision_recall_f1", "src/valor_lite/semantic_segmentation/computation.py:compute_metrics"]}
{"id": "C113", "title": "Reported averages are the averages of the reported values", "statement": "Each reported average (AP, mAP, AR, mAR, mean IoU and their averages over thresholds) lies in [0, 1], is 0 exactly when all averaged values are, is 1 when all are, lies between the smallest and largest averaged value, and is within a number of half ulps of the exact average that grows with the number of values only.", "quantifier": "every evaluator, label, list of thresholds and order of adding up", "why_tests_cant": "Summation order and accumulated rounding depend on numpy's internals.", "anchors": ["src/valor_lite/object_detection/computation.py:compute_average_precision", "src/valor_lite/object_detection/computation.py:compute_average_recall", "src/valor_lite/object_detection/utilities.py:unpack_precision_recall_into_metric_lists", "src/valor_lite/semantic_segmentation/computation.py:compute_metrics"]}
{"id": "C114", "title": "Reported ROC AUC is the exact area up to rounding", "statement": "Each reported ROC AUC is in [0, 1], is 1 for a perfect ranking, and is within 22 half ulps per datum of the share of correctly ranked pairs, wherever the curve is cut into files.", "quantifier": "every evaluator whose remaining ground truths kept their candidates, of fewer than 2^47 datums, and every order of adding up", "why_tests_cant": "Rounding accumulates over trapezoids and files.", "anchors": ["src/valor_lite/classification/computation.py:compute_rocauc", "src/valor_lite/classification/evaluator.py:Evaluator.compute_rocauc"]}
{"id": "C115", "title": "Text generation scores are the exact scores up to rounding", "statement": "Computing with floats changes neither the conversation with the client, nor which metrics fail, nor the order of results. Scores that are fractions of counts are the nearest double; answer correctness is within 5 half ulps (relative); context precision within 4 half ulps on Python 3.12 and later and one per context (plus one) before. All stay in range, are 0 exactly when the exact score is 0 and 1 when it is 1, and moving a useful context one place forward raises the reported context precision.", "quantifier": "every client, response, retry count and Python; context precision: up to 65536 contexts, the order up to 4096", "why_tests_cant": "The rounding of sums depends on the verdicts and on the Python version.", "anchors": ["src/valor_lite/text_generation/computation.py:calculate_context_precision", "src/valor_lite/text_generation/computation.py:calculate_answer_correctness", "src/valor_lite/text_generation/computation.py:calculate_context_recall", "src/valor_lite/text_generation/manager.py:Evaluator.compute_all"]}
{"id": "C116", "title": "Documents of text generation metrics", "statement": "to_dict of each guided metric has exactly type, value and parameters (evaluator, retries); the value is a float in [0, 1], an int from 1 to 5 for summary coherence, or type and message of the error. compute_all gives the documents of the ten guided metrics, one ROUGE document for each type and one BLEU document, in this order; type and parameters tell them apart.", "quantifier": "every client, response, retry count from 0, weights and rouge types, up to 65536 contexts", "why_tests_cant": "Which of the metrics fail depends on the client.", "anchors": ["src/valor_lite/schemas.py:BaseMetric.to_dict", "src/valor_lite/text_generation/metric.py:Metric.error", "src/valor_lite/text_generation/manager.py:Evaluator.compute_all"]}
{"id": "C117", "title": "The IoU of boxes as computed in floats", "statement": "The float IoU of two boxes is in [0, 1], symmetric, 0 for boxes without common interior, positive for overlapping ones, exactly 1 for identical ones, and within 17 half ulps (relative) of area of intersection over area of union, if the areas are not about 1e-9 or less. For integer corners up to 2^25, and for masks, it is the nearest double to the exact quotient, a threshold that is reached exactly is reached by the float, and a box gets the same IoU as its mask. The tables built from these floats satisfy the conditions of all statements about the evaluator.", "quantifier": "all boxes; double coordinates of any sign and magnitude (unbounded exponent); masks of up to 2^52 pixels", "why_tests_cant": "Rounding depends on the coordinates; tests use round numbers.", "anchors": ["src/valor_lite/object_detection/computation.py:compute_bbox_iou", "src/valor_lite/object_detection/computation.py:compute_bitmask_iou", "src/valor_lite/object_detection/loader.py:Loader.add_bounding_boxes"]}
{"id": "C118", "title": "The float IoU and thresholds, moves and scaling", "statement": "A pair passes an IoU threshold exactly if its exact IoU does; shifting, mirroring, transposing or scaling a picture does not change the float IoUs; an IoU of 1 means equal boxes.", "quantifier": "all boxes with double coordinates and area above 1e-9", "why_tests_cant": "Only particular coordinates show the differences.", "anchors": ["src/valor_lite/object_detection/computation.py:compute_bbox_iou", "src/valor_lite/object_detection/loader.py:Loader.add_bounding_boxes"]}
{"id": "C119", "title": "File caches at any path", "statement": "A file cache works whatever characters its path contains: all rows written are read back in order, delete removes it, sort_by sorts its tables, and writing, sorting, deleting or creating a cache changes no other directory.", "quantifier": "all directory trees, paths, write histories; reading and deleting as long as no component of the path contains [, and other directories as long as no component contains one of * ? [", "why_tests_cant": "Tests use temporary directories with ordinary names; the effect needs a path that is also a pattern, and for * and ? a neighbour that matches.", "anchors": ["src/valor_lite/cache/persistent.py:FileCache.get_dataset_files", "src/valor_lite/cache/persistent.py:FileCacheWriter._generate_next_filename", "src/valor_lite/cache/persistent.py:FileCacheWriter.delete", "src/valor_lite/cache/persistent.py:FileCacheWriter.sort_by"]}
{"id": "C120", "title": "Any number of labels", "statement": "A classification prediction counts as a true positive only for the ground truth's own label, however many labels there are: with hardmax the TP count of a label is the number of datums that predict it and have it as ground truth.", "quantifier": "all inputs and storages, hardmax; the exact TP and FP counts for any number of labels, their agreement with the claim for at most 100000 labels", "why_tests_cant": "Tests use a handful of labels; the tolerance of the comparison of label numbers exceeds 1 only from number 100000 on.", "anchors": ["src/valor_lite/classification/computation.py:compute_counts", "src/valor_lite/classification/computation.py:compute_pair_classifications"]}
{"id": "C121", "title": "Predictions below the score threshold do not matter", "statement": "At a score threshold, the counts, precision, recall and F1 of each label and the confusion matrix (matches and unmatched annotations) stay the same when predictions all of whose scores are below the threshold are left out.", "quantifier": "all inputs, overlaps, storages, selections of datums and labels; IoU thresholds above 0 for the counts; predictions without repeated labels", "why_tests_cant": "Low predictions take part in the ranking and in the matching; that they never displace others depends on the order of all rows.", "anchors": ["src/valor_lite/object_detection/computation.py:compute_counts", "src/valor_lite/object_detection/computation.py:rank_pairs", "src/valor_lite/object_detection/computation.py:compute_pair_classifications", "src/valor_lite/object_detection/computation.py:compute_confusion_matrix"]}
{"id": "C122", "title": "More predictions never lower recall", "statement": "Adding predictions to an image, in any position, with any labels, scores and overlaps, never lowers the true positives, the recall or the average recall of a label, at any threshold.", "quantifier": "all inputs, overlaps, storages, selections of datums and labels; IoU thresholds above 0; predictions without repeated labels", "why_tests_cant": "A new prediction changes the ranking of all the others.", "anchors": ["src/valor_lite/object_detection/computation.py:compute_counts", "src/valor_lite/object_detection/computation.py:rank_pairs", "src/valor_lite/object_detection/evaluator.py:Evaluator.compute_precision_recall"]}
{"id": "C123", "title": "Filters on object detection metadata select by an annotation's own metadata", "statement": "A row keeps exactly the declared metadata fields and metadata never changes the reserved columns. A filter on a metadata field keeps exactly the ground truths (predictions, datums) whose own value, or else that of their datum, satisfies the condition, and nothing else changes.", "quantifier": "all inputs with metadata, declared fields, conditions on the value of a field, evaluators built and filtered with either back end; uids that do not stand for different metadata", "why_tests_cant": "Each row merges the metadata of the datum, a ground truth and a prediction into the same columns; whether values leak depends on the overlaps.", "anchors": ["src/valor_lite/object_detection/loader.py:Loader._add_data", "src/valor_lite/object_detection/evaluator.py:Evaluator.filter", "src/valor_lite/object_detection/shared.py:generate_detailed_schema", "src/valor_lite/object_detection/annotation.py:Detection"]}
{"id": "C124", "title": "Filters on classification metadata keep whole datums", "statement": "A row keeps exactly the declared metadata fields and metadata never changes the reserved columns. A filter on a metadata field, passed as datums, groundtruths or predictions, keeps exactly the datums whose value satisfies the condition, with all their candidates; the metrics are those of an evaluator built from these datums.", "quantifier": "all inputs with metadata, declared fields, conditions on the value of a field, evaluators with either back end; uids that do not stand for different metadata; for ROCAUC the condition of C22", "why_tests_cant": "Metadata is repeated on each candidate row and the filter joins rows on ids; a test sees a few rows.", "anchors": ["src/valor_lite/classification/loader.py:Loader.add_data", "src/valor_lite/classification/evaluator.py:Evaluator.filter", "src/valor_lite/classification/shared.py:generate_schema", "src/valor_lite/classification/annotation.py:Classification"]}
{"id": "C125", "title": "A label is evaluated on its own", "statement": "The counts, precision, recall, F1 and average recall of a label are determined, image by image, by the number of its ground truths and the scores and overlaps of its predictions with them: other labels, annotations with other labels and the name of the label have no influence. For average precision and the precision-recall curve this holds when no two predictions of the label have the same score; with equal scores, and with predictions that have several labels, it is refuted.", "quantifier": "all pairs of inputs whose images agree on the label, selections, IoU thresholds > 0, score thresholds, evaluators with either back end; predictions with one label", "why_tests_cant": "Two unrelated inputs are compared; the evaluator ranks all labels in one table, so a dependence between labels shows only for particular overlaps and ties.", "anchors": ["src/valor_lite/object_detection/loader.py:Loader._add_data", "src/valor_lite/object_detection/computation.py:rank_table", "src/valor_lite/object_detection/computation.py:rank_pairs", "src/valor_lite/object_detection/computation.py:compute_counts", "src/valor_lite/object_detection/computation.py:compute_precision_recall_f1"]}
{"id": "C126", "title": "Only the order of the scores matters", "statement": "Replacing the scores of all predictions by other scores in the same order, and the score threshold by one at the same place among them, changes no count, precision, recall or F1, no average precision, precision-recall curve or mean average precision, and no cell of the confusion matrix, including the examples listed in it.", "quantifier": "all inputs, score replacements that are strictly increasing on the scores that occur and keep them on the same side of the tolerance, selections, thresholds, evaluators with either back end", "why_tests_cant": "Quantifies over all monotone transformations of the scores (calibration), in memory and in files.", "anchors": ["src/valor_lite/object_detection/computation.py:rank_pairs", "src/valor_lite/object_detection/computation.py:compute_counts", "src/valor_lite/object_detection/computation.py:compute_precision_recall_f1", "src/valor_lite/object_detection/computation.py:compute_pair_classifications", "src/valor_lite/object_detection/evaluator.py:Evaluator.compute_precision_recall", "src/valor_lite/object_detection/evaluator.py:Evaluator.compute_confusion_matrix_with_examples"]}
{"id": "C127", "title": "Only the order of the scores of a classification matters", "statement": "Replacing all scores of the classifications by other scores in the same order, with zero staying zero, and each score threshold by one at the same place among them, changes no count, accuracy, precision, recall, F1 or confusion matrix cell and no ROC AUC or mean ROC AUC, with or without hardmax and after any filters.", "quantifier": "all inputs without repeated candidate labels, score replacements that are strictly increasing on the scores that occur and keep which of them are zero (or within the tolerance), threshold lists, filters and datum expressions, evaluators with either back end", "why_tests_cant": "Quantifies over all monotone transformations of the scores (calibration), over all data and filters.", "anchors": ["src/valor_lite/classification/computation.py:compute_counts", "src/valor_lite/classification/computation.py:compute_rocauc", "src/valor_lite/classification/computation.py:compute_confusion_matrix", "src/valor_lite/classification/evaluator.py:Evaluator.compute_precision_recall", "src/valor_lite/classification/evaluator.py:Evaluator.compute_rocauc", "src/valor_lite/classification/evaluator.py:Evaluator.compute_confusion_matrix"]}
{"id": "C128", "title": "The warning about overlapping masks counts the overlapping pixels", "statement": "Constructing a Segmentation warns for the ground truths (predictions) exactly if two of them overlap, which is exactly if a mask is changed; the warning counts exactly the pixels that lie in two masks, out of all pixels of the image.", "quantifier": "every list of masks of every shape", "why_tests_cant": "Counting fails only for three or more masks with a chain of overlaps; quantifies over all masks.", "anchors": ["src/valor_lite/semantic_segmentation/annotation.py:Segmentation._validate_bitmasks"]}
{"id": "C129", "title": "The tables and arrays read from a cache are the columns asked for", "statement": "iterate_tables, iterate_arrays and iterate_tables_with_arrays return exactly the selected rows in the order they were written, with the requested columns (arrays: in the requested order, with the same numbers), for caches in memory and in files alike and whichever optional arguments are left out; count_rows and count_tables count them.", "quantifier": "all caches, splits into files, filters, lists of columns, prunings of files that hold no selected row, and iteration orders of sets", "why_tests_cant": "Quantifies over all splits of the rows, all filters and all values; large integers and left-out arguments are not tested.", "anchors": ["src/valor_lite/cache/ephemeral.py:MemoryCacheReader.iterate_tables_with_arrays", "src/valor_lite/cache/ephemeral.py:MemoryCacheReader.iterate_arrays", "src/valor_lite/cache/persistent.py:FileCacheReader.iterate_tables", "src/valor_lite/cache/persistent.py:FileCacheReader.iterate_arrays", "src/valor_lite/cache/persistent.py:FileCacheReader.iterate_tables_with_arrays"]}
{"id": "C130", "title": "Predictions appended with lower scores never lower average precision", "statement": "Appending predictions to images, with scores for a label below all its other scores, never lowers the average precision of the label nor any point of its precision-recall curve, and leaves both unchanged if the new predictions overlap no ground truth of the label enough; if they name no new label, the mean average precision is not lowered either.", "quantifier": "all inputs without repeated labels in a prediction, with ties and several labels per prediction, overlaps, storages, selections of datums; IoU thresholds above 0", "why_tests_cant": "Quantifies over all data sets and all ways of lengthening the list of detections (the usual practice of keeping low-scored boxes).", "anchors": ["src/valor_lite/object_detection/computation.py:compute_counts", "src/valor_lite/object_detection/computation.py:rank_pairs", "src/valor_lite/object_detection/computation.py:compute_average_precision", "src/valor_lite/object_detection/evaluator.py:Evaluator.compute_precision_recall"]}
{"id": "C131", "title": "Computing detection metrics never indexes outside its arrays", "statement": "compute_precision_recall and compute_confusion_matrix succeed on every evaluator built from valid data or derived from one by filters, for every non-empty list of thresholds, whatever order the unstable sort gives to equal precisions. The arrays of compute_precision_recall have one entry per label and 101 recall bins per label, and hold the ground-truth counts, true and false positives, precisions and scores that are reported. The metric lists have one entry per threshold and label, in the order of the label map, with these values. The confusion matrices have one cell per pair of labels with the counts that are reported. Without thresholds both raise a ValueError.", "quantifier": "every data set, storage, chain of filters, datum filter, list of IoU and score thresholds (also zero or negative), and every order of equal precisions", "why_tests_cant": "Index errors and misaligned arrays only show for particular label sets, filters and counts; equal precisions are ordered arbitrarily by argsort.", "anchors": ["src/valor_lite/object_detection/computation.py:compute_counts", "src/valor_lite/object_detection/evaluator.py:Evaluator.compute_precision_recall", "src/valor_lite/object_detection/shared.py:extract_groundtruth_count_per_label", "src/valor_lite/object_detection/utilities.py:unpack_precision_recall_into_metric_lists"]}
{"id": "C132", "title": "Computing classification metrics never indexes outside its arrays", "statement": "compute_precision_recall, compute_confusion_matrix and compute_rocauc succeed on every evaluator that was built from valid data or filtered, and so does the computation of the ROC curve in finalize; they return the values that the other properties describe. An evaluator loaded from a filtered cache without giving its labels has as many labels as remain in the data; each of the three computations succeeds on it exactly when the remaining labels have the lowest numbers, and raises otherwise.", "quantifier": "every data set without repeated candidate labels, storage, chain of filters, datum filter, non-empty list of thresholds and order of the files in the directory", "why_tests_cant": "Index errors only show for particular label sets and filters, and for which filtered caches loading without labels works depends on the order in which labels first occurred.", "anchors": ["src/valor_lite/classification/computation.py:compute_counts", "src/valor_lite/classification/computation.py:compute_confusion_matrix", "src/valor_lite/classification/computation.py:compute_rocauc", "src/valor_lite/classification/evaluator.py:Evaluator.load", "src/valor_lite/classification/evaluator.py:Evaluator.filter", "src/valor_lite/classification/shared.py:extract_groundtruth_count_per_label", "src/valor_lite/classification/utilities.py:unpack_precision_recall"]}
{"id": "C133", "title": "When a filtered segmentation or detection cache can be loaded without its labels", "statement": "An evaluator loaded from a filtered cache without giving its labels knows only the labels that the remaining rows mention; these keep their numbers and, number by number, their metrics. Computing metrics on it succeeds exactly when the labels that are left are those with the lowest numbers (for segmentation: the labels that were added first), and raises otherwise. Means over labels are then taken over the labels that are left.", "quantifier": "every data set, storage, chain of filters, datum filter, list of thresholds and order of the files in the directory", "why_tests_cant": "Whether loading works depends on the order in which labels first occurred and on which of them a filter leaves; a test with one data set shows one of the two outcomes.", "anchors": ["src/valor_lite/object_detection/evaluator.py:Evaluator.load", "src/valor_lite/object_detection/evaluator.py:Evaluator.filter", "src/valor_lite/object_detection/shared.py:extract_labels", "src/valor_lite/object_detection/utilities.py:unpack_precision_recall_into_metric_lists", "src/valor_lite/semantic_segmentation/evaluator.py:Evaluator.load", "src/valor_lite/semantic_segmentation/evaluator.py:Evaluator.filter", "src/valor_lite/semantic_segmentation/utilities.py:unpack_precision_recall_iou_into_metric_lists"]}
{"id": "C134", "title": "Segmentation never indexes outside its arrays", "statement": "Adding segmentations to a builder succeeds for everything the Segmentation constructor accepts, also with overlapping masks, repeated labels, or without ground truths or predictions: the label numbers are inside the count matrix and the assigned blocks fit. Computing metrics succeeds on every evaluator built from clean data or derived from one by filters, and the entries that are read from the arrays are the documented set-theoretic quantities.", "quantifier": "every list of constructed segmentations, every state of the loader, storage, chain of filters and datum filter", "why_tests_cant": "Broadcasting and index errors depend on the number of masks, labels and their order; an empty ground-truth or prediction list takes a special path.", "anchors": ["src/valor_lite/semantic_segmentation/computation.py:compute_intermediates", "src/valor_lite/semantic_segmentation/computation.py:compute_metrics", "src/valor_lite/semantic_segmentation/loader.py:Loader.add_data", "src/valor_lite/semantic_segmentation/evaluator.py:Evaluator._compute_confusion_matrix_intermediate", "src/valor_lite/semantic_segmentation/utilities.py:unpack_precision_recall_iou_into_metric_lists"]}
{"id": "C135", "title": "The example reports of a filtered cache do not need its labels", "statement": "Loading a filtered classification or object detection cache from disk without passing the label map, compute_examples and compute_confusion_matrix_with_examples never raise and describe the filtered data, whatever numbers the labels that are left have: each page lists the same entries as with the label map, and the matrix has exactly one row and one column for every label that is left, with the same counts and examples as with the label map.", "quantifier": "every input, chain of filters, filter, files in any order, datum filter, page, list of thresholds", "why_tests_cant": "compute_precision_recall and compute_confusion_matrix fail on the same caches (C132, C133); whether a report works depends on which labels a filter happens to leave.", "anchors": ["src/valor_lite/object_detection/evaluator.py:Evaluator.load", "src/valor_lite/object_detection/evaluator.py:Evaluator.compute_examples", "src/valor_lite/object_detection/evaluator.py:Evaluator.compute_confusion_matrix_with_examples", "src/valor_lite/classification/evaluator.py:Evaluator.load", "src/valor_lite/classification/evaluator.py:Evaluator.compute_examples", "src/valor_lite/classification/evaluator.py:Evaluator.compute_confusion_matrix_with_examples", "src/valor_lite/object_detection/utilities.py:unpack_confusion_matrix_with_examples"]}
{"id": "C136", "title": "Classification filters can be applied in any order, or all at once", "statement": "Filtering a classification evaluator several times gives the same outcome in every order of the calls, whether each intermediate result is kept in memory or in files, and the same outcome as a single call with the conjunctions of the expressions: either both ways raise EmptyCacheError, exactly when no candidate is selected by all the calls, or both give evaluators with the same summary, the same entries in compute_precision_recall for every datum filter and threshold, the same confusion matrices and the same ROC AUC. The groundtruths expressions must be about the ground truth or the datum, not about single predictions.", "quantifier": "every input, evaluator (built or filtered, in memory or in files), list of filter calls, permutation of it, threshold and datum filter", "why_tests_cant": "The intermediate caches differ in row order, batches and stored curves, and the number of orders grows with the number of filters.", "anchors": ["src/valor_lite/classification/evaluator.py:Evaluator.filter", "src/valor_lite/classification/evaluator.py:Evaluator.compute_precision_recall", "src/valor_lite/classification/evaluator.py:Evaluator.compute_confusion_matrix", "src/valor_lite/classification/evaluator.py:Evaluator.compute_rocauc"]}
{"id": "C137", "title": "Detection and segmentation filters can be applied in any order, or all at once", "statement": "Filtering an object detection or segmentation evaluator any number of times gives the same outcome in every order of the calls, whether each intermediate result is kept in memory or in files, and the same outcome as one call with the conjunctions of the expressions: either every way raises EmptyCacheError, exactly when nothing is selected by all the calls, or every way gives an evaluator with the same metrics for every datum filter. Detection compares counts, precision, recall, F1, curves, AP, AR, mAP and mAR; segmentation compares the whole report and the summary.", "quantifier": "every input, evaluator (built or filtered, in memory or in files), list of filter calls, permutation of it, threshold and datum filter", "why_tests_cant": "Every intermediate cache is cut, sorted and ranked again, and the number of orders grows with the number of filters.", "anchors": ["src/valor_lite/object_detection/evaluator.py:Evaluator.filter", "src/valor_lite/semantic_segmentation/evaluator.py:Evaluator.filter", "src/valor_lite/object_detection/evaluator.py:Evaluator.compute_precision_recall", "src/valor_lite/semantic_segmentation/evaluator.py:Evaluator.compute_precision_recall_iou"]}
{"id": "C138", "title": "Label names and identifiers do not matter", "statement": "Replacing every label by another name, so that different labels keep different names, and replacing the uids of datums and annotations by any others, also by repeated ones, changes nothing in the reports except the names and uids: each entry of a classification report (counts, precision, recall, F1, confusion matrix with and without examples, ROC AUC, pages of examples), of a detection report (counts, precision, recall, F1, curves, AP, AR, confusion matrix with its examples) and of a segmentation report (precision, recall, F1, IoU, hallucinations and missing predictions) under a new name is the entry under the old one, and accuracy, mean ROC AUC, mAP, mAR, mIoU, and the summaries are equal; the pages of detection examples are the same entries under the new uids. This holds for built and filtered evaluators, in memory and in files. Giving two labels the same name does change the reports.", "quantifier": "every input, injective renaming of its labels, renaming of its uids, pair of evaluators (storage, batch size and sequence of filters chosen separately for the two, as long as they select the same annotations), threshold and datum filter", "why_tests_cant": "Labels are numbered by first occurrence, used as array indices and sorted or looked up in several places; a dependence on their spelling or order would only show for particular names. Repeated uids would be merged if a computation grouped by uid instead of datum number.", "anchors": ["src/valor_lite/classification/loader.py:Loader._add_label", "src/valor_lite/classification/evaluator.py:Evaluator.compute_precision_recall", "src/valor_lite/classification/evaluator.py:Evaluator.compute_confusion_matrix", "src/valor_lite/classification/evaluator.py:Evaluator.compute_rocauc", "src/valor_lite/classification/evaluator.py:Evaluator.compute_examples", "src/valor_lite/classification/evaluator.py:Evaluator.compute_confusion_matrix_with_examples", "src/valor_lite/object_detection/evaluator.py:Evaluator.compute_precision_recall", "src/valor_lite/object_detection/evaluator.py:Evaluator.compute_examples", "src/valor_lite/object_detection/evaluator.py:Evaluator.compute_confusion_matrix_with_examples", "src/valor_lite/semantic_segmentation/evaluator.py:Evaluator.compute_precision_recall_iou"]}
{"id": "C139", "title": "Raising the score threshold of a classification only removes predictions", "statement": "Raising the score threshold of compute_precision_recall never adds a true or false positive of any label and never removes a true negative (false positives and true negatives of a label keep their sum), and accuracy never rises; turning hardmax on has the same effect. False negatives never fall and recall never rises. In compute_confusion_matrix no cell grows and no count of unmatched ground truths falls. The thresholds may come from one request or from two. The claims on false negatives and recall hold with hardmax when every ground truth is a candidate of its datum, and are false otherwise: recall can rise with the threshold. The claim on the confusion matrix holds when the lower threshold's request lists its thresholds in ascending order, and is false otherwise.", "quantifier": "every input with distinct candidates, evaluator built or filtered, datum filter, pair of thresholds and lists containing them, label", "why_tests_cant": "The claims compare two thresholds on the same data, for all data; users pick a threshold from such curves assuming they are monotone.", "anchors": ["src/valor_lite/classification/computation.py:compute_counts", "src/valor_lite/classification/computation.py:compute_confusion_matrix", "src/valor_lite/classification/evaluator.py:Evaluator.compute_precision_recall", "src/valor_lite/classification/evaluator.py:Evaluator.compute_confusion_matrix"]}
{"id": "C140", "title": "Evaluating every datum several times scales the counts and leaves the ratios", "statement": "If every datum is listed n times (in any order, over any calls and back ends) instead of once, every count is multiplied by n and every ratio is unchanged. Classification: true and false positives and negatives, confusion matrix cells and unmatched ground truths, rows and datums are n times as many; accuracy, precision, recall, F1 and ROC AUC are equal. Object detection: counts of ground truths, true positives, false positives, false negatives and all cells of the confusion matrix are n times as many; precision, recall, F1 and average recall are equal. Semantic segmentation: pixel and datum counts are n times as many, every reported rate, IoU and confusion matrix entry is equal. ROC AUC is claimed for labels whose best score is not zero and with every ground truth among its candidates. Average precision is not part of the claim: it depends on the order of equal scores (see C87).", "quantifier": "every input, number of repetitions, order of the repeated data, evaluator built or filtered, datum filter, threshold and label", "why_tests_cant": "The claim compares evaluations of two different data sets for every data set and every n; a metric that secretly depends on the size of the data (or on positions in a batch) would break it.", "anchors": ["src/valor_lite/classification/computation.py:compute_counts", "src/valor_lite/classification/computation.py:compute_accuracy", "src/valor_lite/classification/computation.py:compute_rocauc", "src/valor_lite/classification/computation.py:compute_confusion_matrix", "src/valor_lite/object_detection/computation.py:compute_counts", "src/valor_lite/object_detection/computation.py:compute_confusion_matrix", "src/valor_lite/semantic_segmentation/computation.py:compute_metrics"]}
{"id": "C141", "title": "Exchanging ground truths and predictions of segmentations exchanges precision and recall", "statement": "Evaluate a segmentation data set, and the same data set with the predicted masks given as ground truths and the ground truth masks given as predictions. Precision of one report is recall of the other, label by label, and the ratios of unmatched predictions and unmatched ground truths trade places; the confusion matrix is transposed; accuracy, F1, IoU and mean IoU are equal; get_info exchanges the numbers of ground truth and prediction pixels and keeps the others.", "quantifier": "every data set with disjoint masks and distinct labels per datum, evaluators built or filtered (with exchanged filters), any calls and back ends", "why_tests_cant": "The claim relates two evaluations for every data set; a mixed-up axis anywhere between the loader and the report breaks it.", "anchors": ["src/valor_lite/semantic_segmentation/computation.py:compute_intermediates", "src/valor_lite/semantic_segmentation/computation.py:compute_metrics", "src/valor_lite/semantic_segmentation/evaluator.py:Evaluator.compute_precision_recall_iou", "src/valor_lite/semantic_segmentation/loader.py:Loader.add_data"]}
{"id": "C142", "title": "What a perfect score means", "statement": "Classification: accuracy at a threshold is 1 exactly if the ground truth of every datum of the evaluator is predicted; precision of a label is 1 exactly if the label is predicted at least once and only for datums with this ground truth; recall is 1 exactly if it is predicted for some datum with this ground truth, for every such datum that has it as a candidate, and nothing else is predicted for these datums; F1 is 1 exactly if both are. Object detection: recall is 1 exactly if the label has ground truths in the selected images and every one of them is detected (a prediction of the label with a sufficient score overlaps it enough and overlaps no other ground truth of the label more); precision is 1 exactly if as many predictions are accepted as ground truths are detected, and not zero. Semantic segmentation: accuracy is 1 exactly if ground truth and prediction agree on every pixel; precision (recall) of a label is 1 exactly if the label is predicted (occurs) and every pixel predicted (labelled) with it is labelled (predicted) with it; IoU and F1 are 1 exactly if the label occurs and the labelled and the predicted pixels are the same.", "quantifier": "every input, evaluator (classification, segmentation: built or filtered; detection: built, a filtered one reports like one built from the kept data by C74), datum filter, threshold and label; for detection without equal overlaps of one prediction with two ground truths of a label", "why_tests_cant": "Both directions quantify over all data: a perfect score could be reported for imperfect data, or withheld from perfect data.", "anchors": ["src/valor_lite/classification/computation.py:compute_counts", "src/valor_lite/classification/computation.py:compute_accuracy", "src/valor_lite/classification/computation.py:compute_f1_score", "src/valor_lite/object_detection/computation.py:compute_counts", "src/valor_lite/object_detection/computation.py:compute_precision_recall_f1", "src/valor_lite/semantic_segmentation/computation.py:compute_metrics"]}
{"id": "C143", "title": "What a zero score means", "statement": "Precision, recall and F1 of a label are zero together: exactly if the label is never found. Classification: exactly if the label is predicted for no datum with this ground truth; accuracy is 0 exactly if no ground truth is predicted. Object detection: exactly if no ground truth of the label in the selected images is detected, whether or not there are ground truths or predictions. Semantic segmentation: exactly if no pixel carries the label in both ground truth and prediction, and the IoU of the label is then 0 as well; accuracy is 0 exactly if ground truth and prediction differ on every pixel.", "quantifier": "every input, evaluator (classification, segmentation: built or filtered; detection: built, see C74 for filtered ones), datum filter, threshold and label, with fewer than 500 million datums (classification) or 1000 million ground truths of the label (detection), where the tolerance 1e-9 of F1 cannot interfere; for detection without equal overlaps of one prediction with two ground truths of a label", "why_tests_cant": "Both directions quantify over all data: a division guarded against zero, or a tolerance, could report zero although something was found.", "anchors": ["src/valor_lite/classification/computation.py:compute_counts", "src/valor_lite/classification/computation.py:compute_f1_score", "src/valor_lite/object_detection/computation.py:compute_precision_recall_f1", "src/valor_lite/semantic_segmentation/computation.py:compute_metrics"]}
{"id": "C144", "title": "What ROC AUC 1, 0 and 1/2 mean", "statement": "The reported ROC AUC of a label is 1 exactly if every datum with this ground truth gives the label a higher score than every other datum that has it as a candidate; it is 0 exactly if every such datum gives it a lower score; it is 1/2 if all datums give the label the same score. After filtering this holds of the remaining candidates.", "quantifier": "every evaluator built or filtered, every label with remaining positive and negative candidates whose highest score is not exactly 0, whose positives keep their candidate, and whose curve is not cut right behind its origin (always so in memory), with fewer than 2^64 datums", "why_tests_cant": "Both directions quantify over all data and all score assignments; ties decide the difference between a perfect and an almost perfect area.", "anchors": ["src/valor_lite/classification/computation.py:compute_rocauc"]}
{"id": "C145", "title": "How the metrics of a segmentation label are related", "statement": "For every label of a segmentation report: F1 and IoU determine each other by F1 * (1 + IoU) = 2 * IoU; IoU is at most precision, recall and F1; F1 lies between precision and recall; precision plus the ratio of unmatched predictions, and recall plus the ratio of unmatched ground truths, are at most 1. All of this holds also for labels that are never predicted or never occur.", "quantifier": "every data set, evaluator built or filtered, datum filter and label", "why_tests_cant": "The guards against division by zero are separate for each metric; only a proof over all pixel counts shows that the reported values stay consistent.", "anchors": ["src/valor_lite/semantic_segmentation/computation.py:compute_metrics", "src/valor_lite/semantic_segmentation/evaluator.py:Evaluator.compute_precision_recall_iou"]}
{"id": "C146", "title": "Classification and detection metrics of a union lie between those of its parts", "statement": "Evaluate two data sets and their union with the same thresholds, filters and selection. For every label known to both parts, precision, recall and F1 of the union lie between the values of the parts; for a label known to one part only they equal the values of that part; the union lists no other label.", "quantifier": "every two data sets and their concatenation, every evaluator (classification: built or filtered; detection: built), datum expression and back end, every threshold and label, with fewer than 500 million datums (classification) or 1000 million ground truths of the label (detection), where the tolerance 1e-9 of F1 cannot interfere", "why_tests_cant": "Relates quotients of counts of three evaluators with different label numberings; F1 is not a plain average, so the claim is not obvious from examples.", "anchors": ["src/valor_lite/classification/evaluator.py:Evaluator.compute_precision_recall", "src/valor_lite/classification/computation.py:compute_f1_score", "src/valor_lite/object_detection/evaluator.py:Evaluator.compute_precision_recall", "src/valor_lite/object_detection/computation.py:compute_precision_recall_f1"]}
{"id": "C147", "title": "What average precision 1 and 0 mean", "statement": "Rank the predictions of a label by score. For a label with G > 0 ground truths in the selected images, the reported average precision at an IoU threshold is 1 exactly if each of the G best ranked predictions finds a ground truth that no better ranked prediction found; what follows them does not matter. It is 0 exactly if no prediction finds a ground truth.", "quantifier": "every input without equal overlaps of one prediction with two ground truths of a label, every evaluator built in memory or in files, datum filter, IoU threshold and label", "why_tests_cant": "Both directions quantify over all rankings; the 101 recall levels and the running maximum could hide a miss or a wrong prediction among the best.", "anchors": ["src/valor_lite/object_detection/computation.py:compute_average_precision", "src/valor_lite/object_detection/evaluator.py:Evaluator.compute_precision_recall"]}
{"id": "C148", "title": "What mean average precision, mean recall, mean IoU and mean ROC AUC 1 and 0 mean", "statement": "Mean average precision at an IoU threshold is 1 (0) exactly if the average precision of every label of the evaluator is 1 (0) there; its average over thresholds is 1 (0) exactly if that holds at each threshold. Average precision averaged over thresholds, average recall and mean average recall behave likewise for average precision and recall. A label of the evaluator without ground truths in the selected images scores 0 and so keeps mean average precision and mean average recall below 1. Of a segmentation report: mean IoU is 1 exactly if every label of the data occurs and is predicted on exactly its pixels, 0 exactly if no label is predicted on one of its pixels, and below 1 if a label is not annotated on a remaining pixel. Of a classification report: mean ROC AUC is 1 (0) exactly if, for every label, every datum with this ground truth gives it a higher (lower) score than every other datum that has it as a candidate.", "quantifier": "every input, every evaluator built in memory or in files, datum filter, non-empty list of positive IoU thresholds, score threshold and label; for mean IoU every evaluator built or filtered and every datum filter, of data whose masks of one side do not overlap; for mean ROC AUC every evaluator built or filtered whose labels all meet the conditions of C144", "why_tests_cant": "Quantifies over all evaluators and selections; a mean that skips labels or thresholds, or divides by another number, can agree on any given test.", "anchors": ["src/valor_lite/object_detection/computation.py:compute_average_precision", "src/valor_lite/object_detection/computation.py:compute_average_recall", "src/valor_lite/object_detection/utilities.py:unpack_precision_recall_into_metric_lists", "src/valor_lite/object_detection/evaluator.py:Evaluator.compute_precision_recall", "src/valor_lite/semantic_segmentation/computation.py:compute_metrics", "src/valor_lite/classification/computation.py:compute_rocauc"]}
