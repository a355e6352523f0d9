# Formal model of Striveworks/valor (valor_lite) in Rocq

This file is written before the proofs and updated with them.  Section 1 fixes
the modelling conventions, section 2 the plan per property, section 3 the
trusted base, section 4 the findings (properties the code violates).

## 1. Modelling conventions

* Every model definition carries a comment `(* models: file:lines *)`.
* Python lists / arrow tables / numpy arrays with a row axis are Coq lists of
  rows.  A cache is a list of fragments (files); a fragment is a list of rows.
* Exceptions are values (`inl err` / `None` / an `Err` constructor).
* **Numbers that are only compared** (scores, IoUs, thresholds): integers.
  Every finite IEEE double is an integer multiple of 2^-1074, so a finite set
  of doubles is represented exactly by `Z` (unit 2^-1074) as long as the code
  only compares them, which is what it does with scores, IoUs and thresholds.
  The tolerances (`EPSILON`, `np.isclose(.., 0)`) become an arbitrary positive
  integer parameter.  NaN and infinities are excluded.
* **Numbers that are divided** (precision, recall, IoU ...): exact rationals `Q`
  built from integer counts.  `FReportModel.v` is a second model of the same functions in
  binary64 (C112-C114): every conversion of a count, quotient, product, sum and mean is
  rounded to 53 bits, ties to even (`FloatModel.rnd`, also C48); `rnd` is proved to
  be the nearest number and compared with the stdlib's `SpecFloat` on examples.
  The exponent is unbounded (no overflow, no subnormal numbers: the values are 0 or lie
  between 2^-64 and 1).  The order in which numpy adds up is an argument: any binary tree
  of rounded additions (`FReportSpec.summation`); `FReportDemo.np_sum` is numpy's.
  `FTextModel.v` does the same for text generation (C115): int/int is correctly rounded,
  `sum()` adds from left to right (Python < 3.12) or by Neumaier's algorithm (>= 3.12), both
  transcribed from CPython.  The class names and messages of errors are arguments (C116).
* uint64/int64 counters are unbounded, except where wrap-around matters
  (C21/C22 underflow finding, C34 packing), where the wrap is explicit.
* arrow `sort_by`: stable sort.  `np.unique(axis=0, return_index)`: sorted distinct rows,
  index of first occurrence.  `heapq`: a priority queue returning the minimum.
  `np.lexsort`: stable, last key primary.  `repr` of str and list: as CPython's
  `unicode_repr`.  `glob` and `fnmatch`: as in CPython 3.12 on a POSIX system (`PathModel.v`).
  These are trusted descriptions of libraries.  Everywhere else than in C119 the path of a cache is
  taken not to contain any of `*?[` (C119 proves that the two models then agree).
* Labels are compared by their numbers with `np.isclose`, whose tolerance is 1e-8 plus 1e-5 of the
  second number.  The models keep this (`isclose_label`).  The theorems about classification and
  object detection that need equal numbers assume at most 100000 labels (`few_labels`,
  `few_det_labels`); C120 states what happens beyond that.
* External calls (LLM client, JSON parser, tokenizer, shapely) are universally quantified arguments.

Files: `XxxModel.v` (definitions only), `XxxSpec.v` (independent small
specification), `XxxProofs.v` (lemmas), `XxxProps.v` (property theorems, each
closed by `exact`, with `Print Assumptions` and non-vacuity examples).

## 2. Plan per property

| id | what is modelled | how it is proved |
|----|------------------|------------------|
| C01 | FileCacheWriter state machine (buffer, count, open file, files) | invariant `files ++ open ++ buffer = rows written`, induction over ops |
| C02 | MemoryCacheWriter | multiset invariant; order under side condition; `_refuted` in general |
| C03 | same as C01 with batches tagged | invariant: every batch is a contiguous block of one file |
| C04 | same | size invariant over all histories |
| C05 | directory as a finite set of indices in arbitrary listing order | sorting a permutation of distinct keys is unique; decimal printing round-trip |
| C06, C07 | `_merge` with batches, iterators and a min-queue; `sort` | merge loop invariant; stable-sort specification determines the result uniquely |
| C08 | `sort` with mixed kinds | `_refuted` witness for file source and memory sink |
| C09, C10 | `paginate_index` | rank characterisation by induction over fragments |
| C11, C12 | directory state machine with micro-steps | step-wise execution; crash = prefix of micro-steps; `_refuted` crash points |
| C13 | `_add_label`, `extract_labels` | invariant over add sequences; extraction equals loader map |
| C14 | classification `add_data` | argmax lemma; row-by-row characterisation |
| C15, C16 | `compute_counts` with masks/uniques/bincount | counting lemmas relating rows to datums; `_refuted` for C16 in general |
| C17 | metrics over Q | arithmetic |
| C18 | counts additive over datum-aligned splits | counting of disjoint uniques |
| C19, C20 | `compute_pair_classifications`, `compute_confusion_matrix` | conservation by counting; `_refuted` for C20, proved for ascending lists |
| C21, C22 | ROC intermediate and trapezoid | trapezoid sum = pair count by induction over sorted scores; `_refuted` for C22 |
| C23 | protocol state machine | induction over op sequences |
| C24 | filter of OD / classification rows | set characterisation; for OD an invariant (`shows`, `world`) over any sequence of filters |
| C25, C26 | IoU over Z/Q, masks as bool lists | arithmetic / counting |
| C27, C28, C29, C30, C31, C32, C49 | rank_pairs, boundaries, compute_counts, AP | refinement to a declarative definition of TP |
| C121, C122 | end to end: evaluator built from input data | tie-exact declarative TP (`DetPick`); greedy matching over rows sorted by score has the high rows as a prefix, renumbering of predictions; `_refuted` for single labels and for added ground truths |
| C123 | loader, schema and filter with metadata dictionaries (`DetMetaModel`) | simulation: rows with metadata are columns of the rows without, filters commute with it; then the filter theorems of C24 for fields of one kind of annotation, an exact characterisation on built evaluators otherwise; `_refuted` witnesses |
| C124 | loader, schema and filter with metadata dictionaries (`ClsMetaModel`) | the same simulation; a condition on metadata is constant on a datum, so the three arguments give the same view, and C79/C82 apply to it |
| C125 | end to end: two evaluators built from inputs that agree on a label (`DetLabelSpec`) | the pick of every prediction read off the table of the label; ranked lists with distinct scores are determined by their elements; `_refuted` witnesses for equal scores and several labels |
| C126 | end to end: evaluators built from the same input with other scores | the canonical ranked list of C73 is mapped entry by entry; matching in turn (`DetTurnSpec`) is unchanged because sorting only compares |
| C127 | end to end: classification evaluators (any filters) built from the same input with other scores | the data level counts of C83 are equal because the top candidate and the candidates that pass are; the sorted rows of a ROC curve are mapped one by one and the scan only compares neighbouring scores (and the first with 0) |
| C128 | construction of a Segmentation with both accumulators and its warnings (`SegWarnModel`) | loop invariant: the overlap accumulator holds the pixels taken out; refinement to the construction of C38; `_refuted` witness. Python's own suppression of repeated warnings is not modelled |
| C129 | reading a cache as tables and arrays: column selection, filters, pruning of files, numpy's common element type (`ReadModel`) | direct proofs over all files; `_refuted` witnesses. Columns are int64, float64 or string without nulls; pruning and the iteration order of sets are quantified; repeated column names are not modelled |
| C130 | end to end: evaluators built from an input and from the same input with predictions appended | the canonical ranked list of C73 of the longer input is that of the shorter one followed by the new predictions; the maxima over bins can only grow |
| C131 | a second, literal model of compute_counts and compute_precision_recall with fixed-length arrays, numpy indexing that can raise, bincount, np.unique with first occurrences and an arbitrary argsort; the unpacking into metric lists (`DetUnpackModel`); compute_confusion_matrix with its arrays (`DetConfArrayModel`) | every label number is below the number of labels and every recall index at most 100 (true positives are bounded by the ground truths); under these bounds each array operation equals the function-based model of C28-C32 |
| C132 | a second, literal model of the classification evaluator's arrays (counts, confusion matrices, label counts, ROC AUC, running values of finalize) with fixed lengths and indexing that can raise (`ClsArrayModel`) | under the bounds of C71/C78 each array operation equals the function-based model; conversely success of a computation implies that every key of the label map is inside. The uint64 and float64 element types are not modelled here |
| C133 | det_load and seg_load without labels, applied to the directories that a filter wrote; the unpacking of the detection arrays into metric lists (`DetUnpackModel`), where reading the array at a label number can raise | the keys of the label map that is read back are the numbers of the labels that annotations of the view carry; if all are below their count the array theorems of C131 apply (all rows of the ranked cache come from rows of the detailed cache); conversely, a successful unpacking means that all keys are below their count, and by counting they are the lowest numbers |
| C134 | a second, literal model of the segmentation arrays (`SegArrayModel`): np.stack, broadcasting, np.ix_ assignment, uint64 increments, slices, diagonals and the unpacking, all of which can raise | each array equals the matrix function of `SegModel` on its index range; induction over assignments and tables. A missing dictionary key and an index out of range are one error |
| C135 | det_load and cls_load without labels followed by the models of compute_examples and compute_confusion_matrix_with_examples (`DetCellModel`, `ClsPageModel`, `ClsCellModel`), where a failed label lookup is a value | every label number of a stored row is a key of the label map read back, so every lookup agrees with the full label map; induction over tables as for C102 and C105, on the shorter list of names |
| C136 | the models of filter (`ClsFilterModel`, memory and files) and of the reports (`ClsReportModel`), chained by an inductive relation in which a call that raises ends the chain | a filter whose ground truth expression is about the datum is the conjunction of its expressions, so by induction over the chain an evaluator's view is the conjunction over all calls, invariant under permutation; the reports are functions of the view (extensionality of the counts of C78, C81, C82). C136_condition_needed: with a ground truth expression about predictions the order matters |
| C137 | the models of filter of object detection (`DetFilterModel`) and segmentation (`SegModel`), memory and files, chained as in C136 | the view of an evaluator after a chain is the conjunction over the calls, by induction over the chain; a call raises exactly when its view is empty (C24, C40); equal views have equal reports (C73, C56) |
| C138 | two evaluators of the three tasks, one of the data and one of the data with renamed labels and uids (`crename`, `drename`, `srename`), each built and filtered in its own way | the specifications of the reports (C04, C13, C37, C73 …) are about the user's data; each is shown equivariant under a renaming that keeps labels apart and an arbitrary renaming of uids, and averages over labels are compared as sums over permuted lists |
| C139 | reports of one evaluator (built or filtered) at two thresholds, or with and without hardmax | the labels predicted at the higher threshold are among those predicted at the lower one; the counts are counts of datums, compared datum by datum. `_refuted` for recall without hardmax, recall with ground truths that are no candidates, and matrices after a higher threshold |
| C140 | reports of two evaluators (built or filtered, any calls and back ends), one of some data and one of the same data listed n times in any order | the data-level characterisations (C78-C91) turn each count into a sum or count over the data, which n copies multiply by n; ratios are then equal, ROC AUC through the number of correctly ranked pairs (times n squared). Average precision is left out: with equal scores it depends on the order (C87) |
| C141 | reports of two segmentation evaluators (built or filtered), one of some data and one of the data with ground truths and predictions exchanged | the reports are determined by counts of pixels with a pair of labels (C39, C57); exchanging the data exchanges the pair |
| C142 | reports of evaluators of all three tasks (classification, segmentation: built or filtered; detection: built) | the reported ratios are ratios of counts over the data (C78, C28, C39), the numerator counting a part of what the denominator counts; such a ratio is 1 exactly if something is counted and nothing is left out. F1 is 1 exactly if precision and recall are (rational arithmetic) |
| C143 | reports of evaluators of all three tasks (classification, segmentation: built or filtered; detection: built) | as C142: a ratio of counts whose numerator counts a part of the denominator is 0 exactly if the numerator is 0. F1 is reported as 0 when precision + recall <= 1e-9; recall of a found label is at least 1/n, so this does not happen for n < 10^9 |
| C144 | `Evaluator.compute_rocauc` of evaluators built or filtered (exact arithmetic; rounding is C114) | the value is the Mann-Whitney statistic (C82); a sum of pair scores 0, 1, 2 is maximal (zero) exactly if each of its terms is, by induction on positives and negatives |
| C145 | `Evaluator.compute_precision_recall_iou` of evaluators built or filtered (exact arithmetic) | the values are ratios of pixel counts (C39); union + intersection = labelled + predicted pixels, then rational arithmetic, with the case of an empty intersection apart |
| C146 | `compute_precision_recall` of classification and detection evaluators (exact arithmetic) | counts add up (C85, C88); precision, recall and, below the tolerance bound of C143, F1 = 2 TP / (predicted + ground truths) are mediants of the values of the parts |
| C147 | average precision of `compute_precision_recall` (exact arithmetic) | the value is the 101-point interpolated average of the ranking (C32); an average of values in [0,1] is 1 (0) exactly if all are; at recall level 100/100 precision 1 is attained only by a prefix of G true positives, at level 0 every true positive counts |
| C148 | mean average precision, average recall and their means over labels and thresholds; mean IoU of segmentation; mean ROC AUC (exact arithmetic) | a mean of values in [0,1] is 1 (0) exactly if each is, by induction over the list; the label axis lists exactly the labels of the evaluator; without ground truths the number of true positives is 0 (C32); mean IoU and mean ROC AUC likewise from the values of each label (C39, C142, C143; C144) |
| C33, C34, C35 | greedy matching, packing, pair classification, confusion matrix | invariants, counting |
| C36 | OD loader and both back ends | coverage by case analysis, pipeline refinement |
| C37, C39, C40, C56, C57 | segmentation loader, both builders, load, filter, confusion matrix, metrics, info | stored rows are a relabelled image of the input (`holds`), preserved by filters; sums of rows are pixel counts |
| C38, C60 | `Segmentation` construction, on values and on shared arrays | loop invariants; refinement; `_refuted` witnesses |
| C58, C61, C62 | histories of loader calls, directories | symbolic execution over cache invariants |
| C59 | row metadata merging | view of own metadata; `_refuted` witnesses |
| C41, C42, C66, C68, C69 | the ten guided methods over an arbitrary stateful client, as programs that return, call and sequence; retry loop | induction over attempts and over programs (`built`, `safe`, `at_most`) |
| C43, C63, C64, C71 | the score computations with the messages they send | each score characterised as an iff over conversations; arithmetic over Q |
| C44, C45 | validators, `re.search` patterns | exact characterisation; `_refuted` witnesses |
| C65, C67 | `compute_all`, BLEU and ROUGE post-processing | sequencing; `_refuted` without contexts |
| C70 | OpenAI and Mistral wrappers, message validation | induction over conversations |
| C46 | metadata | list reasoning |
| C47 | unpack_* of examples | counting |
| C48 | float recall binning | rounding error bound; `_refuted` at 0.29, 0.57, 0.58; AP within 1/101, for evaluators derived by filters too (`FloatShown`) |
| C50 | accuracy with datum filter | `_refuted` + proved without filter |
| C51 | `sort_by` of both caches | per-file stable sort |
| C53 | second `finalize` | symbolic execution; `_refuted` |
| C54 | OD confusion matrix on two storages | stable sort of datum-aligned groups is determined per datum |
| C55 | report lists and averages | arithmetic, list reasoning |
| C52 | `compute_examples` / `unpack_examples` | soundness and completeness of the emitted list |
| C72 | OD `load`, `extract_labels` with override | any listing order gives the same tables; `_refuted` without labels |
| C73, C74 | OD `filter` on both back ends | the ranked rows of one label are a sorted list determined by the kept data (`canonical_unique`); equal overlaps and scores allowed: the order of tied rows survives filtering (`DetTieOrder.v`); renumbering to the reduced data |
| C75 | OD `get_info` | distinct ids = positions in the input |
| C76, C77 | the score column of the precision-recall curve | rows above a threshold are a prefix of the ranking; `_refuted` for operating points |
| C78, C79, C81 | classification `filter`, `get_info` on both back ends | invariant over any sequence of filters (`cgood`: the rows are the kept rows of the input); counts as sums over the input; `_refuted` for hardmax |
| C80 | classification `load`, `extract_labels` with override | any listing order gives the same tables; `_refuted` without labels |
| C82 | ROC curve and `compute_rocauc` of filtered evaluators | the points of a label depend only on its sorted outcomes (`sorted_perm_eq`); area of any split (`area_safe`); `_refuted` for the mean and for values above 1 |
| C83 | `compute_precision_recall`, `compute_rocauc`, `compute_confusion_matrix` with `unpack_*` (ClsReportModel.v) | the label map is a permutation of the labels of the input (`items_labels`); each list is the table of the counts of the data |
| C84, C85 | the same, for two evaluators | reports are functions of the multiset of the data (C83), counts over a concatenation add up |
| C86, C87 | object detection reports of two evaluators over permuted images | the rows of an image determine its ranking, true positives and matching (`image_ranked`, `image_matching`), so sums over images are permutation invariant; ranked rows of one label are a sorted list of a multiset when scores are `apart`; `_refuted` for shared scores |
| C88 | the same, for two data sets and their concatenation | sums over images of a concatenation |
| C89, C90, C91 | segmentation reports and info of evaluators over permuted or concatenated data | pixel counts are sums over the data (C39, C57), hence permutation invariant and additive; the mediant inequality for quotients; `_refuted` for the number of rows |
| C92 | annotations with boxes, boolean arrays or polygons; IoU matrices of the three add methods; calls on both builders | pixels of a drawn box counted as a product of two intervals; equal IoUs give equal builders |
| C93, C94 | same | Qmin/Qmax under shifts, reflections, scaling; counting set pixels is invariant under rearrangement; `_refuted` for tiny boxes |
| C95, C96 | same, with numpy's stacking error; the constructors of the annotation classes | the matrices of all images are computed before the first write; index arithmetic of the reshaped matrix |
| C97, C98 | the f-strings of `llm/instructions.py` with their literal text, Python's `repr` of strings and lists (for any table of printable characters) | `repr` has an inverse and no newline, so the separators of the templates can be found from the first or the last line; the literals of the Python reference as an inductive relation |
| C99 | the programs of C41-C45, with the messages they send | Hoare rules for programs that send messages; lists come from `json.loads` through the validators |
| C100 | same | unfolding: the methods of two responses that agree on the documented inputs are equal |
| C101 | `compute_examples` of classification: `paginate_index`, `unpack_examples` | pages commute with tables whose datums are in order (every evaluator keeps them so); then one datum at a time |
| C102 | `compute_confusion_matrix_with_examples` of classification with its nested dictionaries | loop invariant over the dictionary as a function of its labels; lists taken from ordered tables are in input order |
| C103 | `compute_confusion_matrix` of object detection with its dictionaries | the rows of a table picture the remaining images; the greedy choice over sorted rows is the only matching taken in turn; counts of unique rows are lengths of input lists |
| C104 | `compute_examples` of object detection with `paginate_index` | page tables picture the images of the page; sorted unique ids are input lists in input order |
| C105 | `compute_confusion_matrix_with_examples` of object detection with its nested dictionaries | loop invariant over the three dictionaries as functions of their labels |
| C106 | `unpack_*` functions and `Metric` constructors of classification, with `to_dict`: metrics as Python values with object identities | every constructed metric has the contents of its document; combined with the values of C83, C101, C102; documents told apart by type and parameters unless a threshold is repeated |
| C107 | the same for object detection | as C106, with the values of the report functions (C31-C36, C50, C76, C86) and of C103-C105 |
| C108 | the same for segmentation | as C106, with C39; equality up to the representation of rationals |
| C109 | identities of the lists and dictionaries inside metrics; `asdict`; in-place changes | every object of a metric is made at its own place in its own call or belongs to the caller; refuted for the thresholds passed by the caller |
| C110 | `json.loads(json.dumps(...))` on Python values | structural induction on documents; refuted for the tuples of object detection examples |
| C111 | `compute_sentence_bleu` and the BLEU part of `compute_all` as sessions over list objects, the two default lists included | invariant over sessions; refuted when the weights of a metric are changed in place; which metrics a change reaches is proved for every session |
| C112 | the metric values of the three numeric tasks in binary64 | relative error of one rounding; interval and grid arguments for F1 = 0, 1; monotonicity of rounding |
| C113 | means in binary64, for any order of adding up | induction on the tree of additions; refuted: the mean can exceed the maximum |
| C114 | ROC AUC in binary64, over the files of the curve | error bound per trapezoid and per file, invariant over the files; refuted: a perfect ranking is not reported as 1, the value can exceed 1 |
| C115 | the ten guided metrics over binary64, `sum()` of Python before and from 3.12 | simulation: the same conversation, failures and metrics, each score related to the exact one by an error bound; order: gap between the exact means against the error |
| C116 | `to_dict` of the metrics of compute_all | from C115, C42 and C67; refuted: documents of errors are not told apart |
| C117 | IoU of boxes and masks in binary64, from the coordinates on | monotone rounding and rnd(2x) = 2 rnd x for the range and for 1; relative errors of each step; exact integers below 2^53 on the grid |
| C118 | thresholds, moves, scaling and perfect IoU in binary64 | the value depends on differences of coordinates only; rounding commutes with powers of two; refuted in general |
| C119 | directory trees, Python's `glob` and `fnmatch` patterns, the file writer, `sort_by`, `create` and `delete` with `get_dataset_files` going through the pattern `f"{path}/*.parquet"` | a pattern without `[` matches itself, so the next file number exceeds all own ones and the writer simulates the one of C01; refuted with brackets, and for neighbours with `*` or `?`; for paths without brackets the files reached are characterised against a relational matching of * and ? on all trees the library builds (`PathReach.v`) |
| C120 | `compute_counts` with `np.isclose` on the label numbers, without a bound on the number of labels | the per-datum count lemma of C15 with `near` in place of equality; `_refuted` by a family of inputs with n + 2 labels for every n + 1 >= 100000, handled symbolically |

## 3. Trusted base

* Coq 8.16.1 kernel (and `vm_compute` in examples and `_refuted` witnesses).
* Library modules that are merely loaded (`Coq.ssr.ssrunder.Under_rel.*`, through the
  standard library's own imports) contain constants of a sealed module; no theorem depends
  on them.
* Every property theorem is followed by `Print Assumptions`; all answer "Closed
  under the global context": no axioms, neither own nor from the standard library.
* The hand translation from Python to Gallina (each definition cites its lines) and
  the library behaviours listed in section 1.

Modelled: `cache/` (writers, readers, sort, pagination, create/load/delete),
`classification/` (loader, finalize, counts, confusion matrix, ROC, examples, metadata, filter,
load, info, label extraction), `object_detection/` (annotations with boxes, masks and polygons, IoU, loader, both back ends, ranking, counts, AP,
matching, confusion matrix, examples, reports, metadata, filter, load, info), `semantic_segmentation/`
(annotations, loader, builders, load, filter, info, confusion matrix, metrics; pixel counts
modulo 2^64), `text_generation/` (response reading, validators, all scores, evaluator with
retries, `compute_all`, client wrappers, prompts with their literal text, copied by `tools/gen_prompts.py`), the metrics of the three numeric
tasks as Python values (construction, `to_dict`, sharing, JSON), `cache`/`schemas` metadata encoding.  Not
modelled: parquet/arrow encodings, compression, profiling code, the LLM services,
nltk/evaluate/json (arbitrary functions), plotting and benchmarks.  Geometry (`GeoModel.v`)
is exact: coordinates and areas are rationals, and one monotone rounding, which is arbitrary,
turns the quotient into the stored IoU.  `FBoxModel.v` (C117, C118) rounds every step as
float64 does, with unbounded exponent; for masks and for boxes with integer coordinates up to
2^25 the two models are proved to build the same tables, for other boxes the IoUs are proved
to be 17 half ulps apart at most, and C93, C94 hold as far as C118 says.  The areas of polygons
are shapely's.

## 4. Findings

Claims a user may expect that are false of the code; each has a theorem.

| where | finding | theorem |
|-------|---------|---------|
| cache | `MemoryCacheWriter.write_table` overtakes buffered rows | C02_..._refuted |
| cache | an empty record batch in the merge drops the rest of that source | C06_..._refuted |
| cache | `sort` into a memory sink from several tables does not sort | C08_..._refuted |
| cache | batch_size 0 can be created but not loaded; delete fails half-way with a foreign directory entry | C11_..._refuted |
| cache | crash between create/delete steps leaves a path that cannot be re-created | C12_..._refuted |
| classification | TP+FN misses a ground truth that is no candidate when nothing is predicted | C16_uncovered_refuted |
| classification | hardmax=False counts one ground truth as TP and FN | C16_without_hardmax_refuted |
| classification | accuracy can exceed 1 (hardmax=False, repeated candidate) | C17_accuracy_without_hardmax_refuted |
| classification | confusion matrix at a threshold also applies all earlier thresholds in the list | C20_any_order_refuted |
| classification | ROCAUC wrong when the label's highest score is 0 | C21_zero_scores_refuted |
| classification | ROCAUC exceeds 1 when a ground truth is not among the candidates of its datum | C21_uncovered_refuted, C82_above_one_refuted |
| classification | ROCAUC depends on the split of the curve into files | C22_isolated_origin_refuted |
| classification | data added after finalize reaches an existing file-backed evaluator | C23_evaluator_isolation_files_refuted |
| classification | accuracy with a datum filter divides by the unfiltered number of datums | C50_filtered_accuracy_refuted |
| classification | with hardmax, a datum whose winning candidate was filtered out has no prediction | C79_hardmax_refuted |
| classification | a filtered cache loaded without its labels cannot compute ROCAUC (IndexError) | C80_load_filtered_refuted |
| classification | mean ROCAUC of a filtered evaluator averages over labels that were filtered out | C82_mean_refuted |
| detection | identical boxes of area below 1e-9 have IoU 0 | C25_tiny_box_refuted |
| detection | counts change with the unit of length when boxes are smaller than 1e-9 | C94_scale_refuted |
| detection | an IoU of exactly 1/2 can be reported as 0.4999999999999999 and miss the threshold 0.5; scaling the picture (exactly) changes the counts (binary rounding) | C118_scale_refuted, C118_threshold_refuted |
| detection | different boxes can have the IoU 1.0; a shift of 2^54 makes a box vanish (binary rounding) | C118_one_refuted, C118_move_refuted |
| detection | a multi-label prediction matching under one label is not a false positive under the others | C27_multi_label_refuted |
| detection | at IoU threshold 0 there are no true positives | C28_zero_threshold_refuted |
| detection | the packed membership test confuses pairs with an absent id (not reachable from the callers) | C34_absent_ids_refuted |
| detection | a multi-label prediction puts its ground truth in several cells of one row | C35_row_refuted |
| detection | confusion matrix and precision-recall counts disagree: the matching ignores the thresholds | C35_diagonal_refuted |
| detection | a ground truth with several scored labels is accepted, all but the first lost if nothing overlaps it | C36_multi_label_groundtruth_refuted |
| detection | an example can list one prediction as true and as false positive | C47_disjoint_lists_refuted |
| detection | recall exactly 0.29, 0.57 or 0.58 is counted one recall level too low (binary rounding) | C48_level_refuted, C48_refuted |
| detection | a second finalize duplicates the ranked rows and changes counts and AP | C53_second_finalize_refuted |
| detection | a filtered cache loaded without its labels cannot compute metrics (IndexError) | C72_load_filtered_refuted |
| detection | mAP and mAR of a filtered evaluator average over labels that were filtered out | C74_map_refuted |
| detection | get_info does not count datums without annotations | C75_blank_datum_refuted |
| detection | the score and the precision listed at a recall level are not an operating point | C77_operating_point_refuted |
| detection | AP depends on the order in which images are added when a hit and a duplicate have equal scores | C87_order_matters_refuted |
| segmentation | two masks with one label on the same side: only the last is counted | C37_repeated_label_refuted |
| segmentation | overlap removal misses chains of three masks; a stored count wraps to 2^64-1 | C38_three_masks_refuted, C38_wrapped_count_refuted |
| segmentation | a prediction (ground truth) is selected by the metadata of the ground truth (prediction) it overlaps | C59_..._refuted |
| segmentation | constructing a Segmentation changes the caller's arrays, also those shared with the other list | C60_..._refuted |
| segmentation | data added after finalize reaches an existing file-backed evaluator | C61_added_data_refuted |
| segmentation | a filtered cache loaded without its label map cannot compute metrics | C62_without_labels_refuted |
| segmentation | the number of rows in get_info depends on the order of the data | C90_rows_refuted, C90_rows_of_parts_refuted |
| detection | averaging equal recalls can give a larger number: 0.1 at three thresholds gives 0.10000000000000002 (binary rounding) | C113_refuted |
| classification | ROCAUC of a perfect ranking is not always 1, and can exceed 1 (binary rounding) | C114_perfect_refuted, C114_above_one_refuted |
| text generation | the same verdicts give different context precisions under Python 3.11 and 3.12, whose `sum()` compensates (last place) | C115_versions |
| text generation | the documents of two failed metrics are equal: which metric failed is only in the key of compute_all | C116_told_apart_refuted |
| text generation | negative retries: a guided metric returns None | C41_negative_retries_refuted |
| text generation | context recall divides by zero when a ground truth has no statements; not retried | C42_empty_groundtruth_refuted |
| text generation | hallucination raises without retrieved contexts, so compute_all always fails then, after paid calls | C42_no_contexts_refuted, C65_empty_context_refuted |
| text generation | a verdict that is a list or dict raises TypeError instead of an invalid response; not retried | C44_unhashable_verdict_refuted |
| text generation | the analysis of a verdict may be anything | C44_analysis_refuted |
| text generation | an integer of more than 4300 digits raises ValueError; not retried | C45_long_integer_refuted |
| text generation | context precision 1 does not mean that all contexts are useful | C71_all_useful_refuted |
| text generation | a query or text of several lines can imitate the next headings: two different context precision (summary coherence) requests have the same prompt | C97_precision_refuted, C97_coherence_refuted |
| classification | with a repeated threshold two confusion matrices have the same type and parameters and different cells | C106_told_apart_refuted |
| object detection | the averaged metrics keep the caller's list of thresholds: changing it, or the parameters of one metric, changes others | C109_change_refuted |
| object detection | the pairs of an example are tuples, so a JSON round trip is not equal | C110_detection_refuted |
| text generation | changing the weights shown by a BLEU metric that used the default changes all later default calls | C111_defaults_refuted |
| text generation | a BLEU metric keeps the caller's list of weights and shows its later contents | C111_shown_refuted |
| cache | a path with brackets, such as `runs/exp[1]`: every new file overwrites `000000.parquet`, so rows are lost; delete fails and so does every later delete or create | C119_rows_refuted, C119_delete_refuted |
| cache | deleting or sorting the cache at `runs/exp*` deletes or sorts the files of `runs/exp1` | C119_others_refuted, C119_count_refuted |
| classification | with 100002 labels or more, a prediction of label number 100000 for a ground truth with number 99999 counts as a true positive (`np.isclose` on label numbers; object detection and the confusion matrices compare the same way) | C120_refuted, C120_crowd |
| object detection | a label with a score below the threshold absorbs the other labels of its prediction, so leaving it out changes the counts at the threshold | C121_label_refuted |
| object detection | an added ground truth can take the predictions of two others: true positives fall from 2 to 1 | C122_groundtruths_refuted |
| object detection | selecting ground truths by a field that predictions also use: a ground truth of source `human` that overlaps a prediction of source `robot` is dropped, and selecting `robot` keeps it | C123_groundtruths_refuted, C123_groundtruths |
| object detection | selecting predictions by a field of the ground truths keeps predictions by the ground truths they overlap | C123_predictions_refuted |
| object detection | selecting datums by a field that an annotation also uses keeps part of a datum | C123_datums_refuted |
| object detection | of two predictions with equal scores the one that overlaps a ground truth of another label more is ranked first, so average precision of a label depends on other labels | C125_average_precision_refuted |
| object detection | the false positives of a label depend on the ground truths of the other labels of its prediction | C125_several_labels_refuted |
| classification | a label whose best score is exactly 0 loses the origin of its ROC curve (the scan starts with score 0): scored 0 by every datum it has area 0, with all scores raised by a constant 1/2 | C127_zero_matters |
| segmentation | the warning about overlapping masks does not count a pixel shared by the second and third mask if the second overlaps the first | C128_shared_refuted |
| cache | iterate_tables_with_arrays raises when the numeric columns, documented as optional, are left out (the columns themselves are used as keys) | C129_optional_refuted |
| cache | in an array with a float column the ids 2^53 and 2^53 + 1 are the same number | C129_large_refuted |
| object detection | a prediction appended with the same score as a hit is ranked before it if it overlaps an object of another label better, which lowers average precision | C130_equal_refuted |
| object detection | one low-scored prediction with a label that has no ground truth lowers the mean average precision (the label counts with 0) | C130_new_label_refuted |
| object detection | after a second finalize on the same loader a found ground truth counts twice; if all ground truths of a label are found, the recall index exceeds 100 and compute_precision_recall raises an IndexError | C53_raises_refuted |
| object detection | if a hit and a false alarm have the same score, the curve lists a precision that no score threshold reaches | C77_ties_refuted |
| cache | a cache whose path contains a class such as [1] never sees its own files, in any tree | C119_own_files_refuted |
| classification | a filtered cache loaded without its labels raises in every computation unless the remaining labels happen to have the lowest numbers | C132_unlabelled |
| segmentation | a filtered cache loaded without its labels gives another mean IoU (1/3 instead of 1/9 in the example), or raises unless the labels that are left were added first | C133_seg_loads_refuted, C133_seg_same_mean_refuted, C133_seg_needs |
| object detection | a filtered cache loaded without its labels raises in compute_precision_recall unless the labels that are left have the lowest numbers | C133_det_loads_refuted, C133_det_needs |
| classification | with a groundtruths expression that refers to predictions the order of two filters matters: one order keeps four candidates, the other raises EmptyCacheError | C136_condition_needed |
| classification | recall can rise with the score threshold: without hardmax (1/2 at 4, 1 at 6 for one datum), and with hardmax when a ground truth is no candidate of its datum | C139_recall_without_hardmax_refuted, C139_recall_uncovered_refuted |
| classification | the confusion matrix of a lower threshold can have fewer matches than that of a higher one in the same request | C139_confusion_refuted |
