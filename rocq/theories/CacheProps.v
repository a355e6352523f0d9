(* C01-C12 and C51: properties of the row caches.
   Vocabulary: CacheSpec.v; model: CacheModel.v, LifecycleModel.v. *)
From Verif Require Import Prelude CacheModel CacheSpec CacheProofs CacheSizeProofs SortProofs
  PaginateProofs CacheLemmas.

(* ---------------------------------------------------------------- C01 *)
(* For every write history and every directory listing order, reading the file
   cache back yields exactly the rows written, in the order written. *)
Theorem C01_file_cache_keeps_rows_in_order :
  forall (A : Type) (batch_size rows_per_file : nat) (ops : list (wop A)) (listing : dir A),
    lists_files batch_size rows_per_file ops listing ->
    concat (file_tables listing) = written ops.
Proof. exact (@file_order). Qed.
Print Assumptions C01_file_cache_keeps_rows_in_order.

Example C01_example :
  lists_files 2 3 [WriteRows [1]; WriteRows [2;3]; WriteTable [4]; WriteBatch []; WriteRows [5]]
    [(1, [4]); (2, [5]); (0, [1;2;3])]
  /\ concat (file_tables [(1, [4]); (2, [5]); (0, [1;2;3])]) = [1;2;3;4;5].
Proof.
  split; [|reflexivity]. unfold lists_files. vm_compute.
  apply perm_trans with [(1, [4]); (0, [1;2;3]); (2, [5])].
  - apply perm_skip. apply perm_swap.
  - apply perm_swap.
Qed.

(* the same under a row filter: nothing is lost, invented or reordered *)
Theorem C01_filtered_read :
  forall (A : Type) (batch_size rows_per_file : nat) (ops : list (wop A)) (listing : dir A)
         (keep : A -> bool),
    lists_files batch_size rows_per_file ops listing ->
    concat (file_tables_filtered keep listing) = filter keep (written ops).
Proof.
  intros A bs rpf ops l keep H. unfold file_tables_filtered.
  rewrite <- filter_concat. rewrite (file_order _ _ _ _ H). reflexivity.
Qed.
Print Assumptions C01_filtered_read.

(* count_rows counts the rows written *)
Theorem C01_count_rows :
  forall (A : Type) (batch_size rows_per_file : nat) (ops : list (wop A)) (listing : dir A),
    lists_files batch_size rows_per_file ops listing ->
    file_count_rows listing = length (written ops)
    /\ file_count_tables listing = length (file_tables listing).
Proof.
  intros A bs rpf ops l H. split.
  - rewrite <- (file_order _ _ _ _ H). unfold file_count_rows, file_tables. rewrite length_concat, map_map.
    assert (P : Permutation l (isort frag_leb l)) by (apply isort_perm; apply frag_leb_total || apply frag_leb_trans).
    clear H. revert P. generalize (isort frag_leb l). intros l' P.
    induction P; simpl; lia.
  - unfold file_count_tables, file_tables. rewrite map_length.
    apply Permutation_length, isort_perm.
Qed.
Print Assumptions C01_count_rows.

(* ---------------------------------------------------------------- C02 *)
Theorem C02_memory_cache_keeps_every_row :
  forall (A : Type) (batch_size : nat) (ops : list (wop A)),
    Permutation (mem_read (mem_run batch_size ops)) (written ops).
Proof. exact (@mem_perm). Qed.
Print Assumptions C02_memory_cache_keeps_every_row.

Theorem C02_memory_cache_keeps_order :
  forall (A : Type) (batch_size : nat) (ops : list (wop A)),
    tables_guarded true ops = true ->
    mem_read (mem_run batch_size ops) = written ops.
Proof. intros A bs ops H. exact (mem_order bs ops (mem_safe_guarded bs ops H)). Qed.
Print Assumptions C02_memory_cache_keeps_order.

Example C02_example :
  tables_guarded true [WriteTable [1]; WriteRows [2]; Flush; WriteTable [3]; WriteRows [4]] = true.
Proof. reflexivity. Qed.

(* Finding: without the side condition the order is not kept; write_table
   (ephemeral.py:245-257) overtakes rows that are still buffered. *)
Theorem C02_write_table_overtakes_buffer_refuted :
  exists (batch_size : nat) (ops : list (wop nat)),
    mem_read (mem_run batch_size ops) <> written ops.
Proof. exists 10, [WriteRows [1]; WriteTable [2]]. vm_compute. discriminate. Qed.
Print Assumptions C02_write_table_overtakes_buffer_refuted.

(* ---------------------------------------------------------------- C03 *)
Theorem C03_rows_of_one_call_stay_in_one_file :
  forall (A : Type) (batch_size rows_per_file : nat) (before : list (wop A)) (call : wop A)
         (after : list (wop A)) (listing : dir A),
    is_flush call = false -> op_rows call <> [] ->
    lists_files batch_size rows_per_file (before ++ call :: after) listing ->
    exists files1 pre post files2,
      file_tables listing = files1 ++ (pre ++ op_rows call ++ post) :: files2
      /\ concat files1 ++ pre = written before
      /\ post ++ concat files2 = written after.
Proof. exact (@c03). Qed.
Print Assumptions C03_rows_of_one_call_stay_in_one_file.

Example C03_example :
  is_flush (WriteRows [2;3]) = false /\ op_rows (WriteRows [2;3]) <> [] /\
  lists_files 2 3 ([WriteRows [1]] ++ WriteRows [2;3] :: [WriteTable [4]]) [(0, [1;2;3]); (1, [4])].
Proof. repeat split; [discriminate|]. unfold lists_files. vm_compute. reflexivity. Qed.

(* a table written by write_table gets a file of its own *)
Theorem C03_write_table_gets_its_own_file :
  forall (A : Type) (batch_size rows_per_file : nat) (before : list (wop A)) (t : list A)
         (after : list (wop A)) (listing : dir A),
    lists_files batch_size rows_per_file (before ++ WriteTable t :: after) listing ->
    exists files1 files2, file_tables listing = files1 ++ t :: files2
      /\ concat files1 = written before /\ concat files2 = written after.
Proof. exact (@table_own_file). Qed.
Print Assumptions C03_write_table_gets_its_own_file.

(* ---------------------------------------------------------------- C04 *)
Theorem C04_file_size_bound :
  forall (A : Type) (m batch_size rows_per_file : nat) (ops : list (wop A)) (listing : dir A)
         (file : list A),
    1 <= rows_per_file -> forallb (small m) ops = true ->
    lists_files batch_size rows_per_file ops listing ->
    In file (file_tables listing) ->
    length file <= (rows_per_file - 1) + (batch_size - 1) + m.
Proof. exact (@file_size_bound). Qed.
Print Assumptions C04_file_size_bound.

(* the bound is attained *)
Example C04_example_tight :
  1 <= 3 /\ forallb (small 4) [WriteRows [1;2]; WriteRows [3]; WriteRows [4;5;6;7]] = true
  /\ lists_files 2 3 [WriteRows [1;2]; WriteRows [3]; WriteRows [4;5;6;7]] [(0, [1;2;3;4;5;6;7])]
  /\ (3 - 1) + (2 - 1) + 4 = length [1;2;3;4;5;6;7].
Proof. repeat split; [lia|]. unfold lists_files. vm_compute. reflexivity. Qed.

Theorem C04_only_the_last_file_can_be_short :
  forall (A : Type) (batch_size rows_per_file : nat) (ops : list (wop A)) (listing : dir A)
         (files : list (list A)) (lastf : list A),
    forallb batched ops = true -> lists_files batch_size rows_per_file ops listing ->
    file_tables listing = files ++ [lastf] ->
    Forall (fun f => rows_per_file <= length f) files.
Proof. exact (@files_full_but_last). Qed.
Print Assumptions C04_only_the_last_file_can_be_short.

Example C04_example_full :
  forallb batched [WriteRows [1;2;3]; WriteRows [4;5;6;7]; WriteBatch [8]] = true
  /\ lists_files 2 3 [WriteRows [1;2;3]; WriteRows [4;5;6;7]; WriteBatch [8]]
       [(0, [1;2;3]); (1, [4;5;6;7]); (2, [8])].
Proof. split; [reflexivity|]. unfold lists_files. vm_compute. reflexivity. Qed.

Theorem C04_buffered_rows_bound :
  forall (A : Type) (batch_size rows_per_file : nat) (ops : list (wop A)),
    list_sum_nat (map (@length A) (m_buffer (mem_run batch_size ops))) <= batch_size - 1
    /\ list_sum_nat (map (@length A) (f_buffer (file_run batch_size rows_per_file ops))) <= batch_size - 1.
Proof. intros A bs rpf ops. exact (conj (mem_buffer_bound bs ops) (file_buffer_bound bs rpf ops)). Qed.
Print Assumptions C04_buffered_rows_bound.

(* ---------------------------------------------------------------- C05 *)
Theorem C05_listing_order_is_irrelevant :
  forall (A : Type) (batch_size rows_per_file : nat) (ops : list (wop A)) (l1 l2 : dir A),
    lists_files batch_size rows_per_file ops l1 -> lists_files batch_size rows_per_file ops l2 ->
    file_tables l1 = file_tables l2.
Proof. exact (@c05_listing). Qed.
Print Assumptions C05_listing_order_is_irrelevant.

(* files are created with strictly increasing indices *)
Theorem C05_indices_increase :
  forall (A : Type) (batch_size rows_per_file : nat) (ops : list (wop A)),
    StronglySorted lt (map fst (f_dir (file_run batch_size rows_per_file ops))).
Proof. exact (@c05_increasing). Qed.
Print Assumptions C05_indices_increase.

(* after a flush the existing files are final: later writes only add files behind them *)
Theorem C05_flushed_files_are_final :
  forall (A : Type) (batch_size rows_per_file : nat) (ops1 ops2 : list (wop A)) (l1 l2 : dir A),
    lists_files batch_size rows_per_file ops1 l1 ->
    lists_files batch_size rows_per_file (ops1 ++ Flush :: ops2) l2 ->
    exists more, file_tables l2 = file_tables l1 ++ more.
Proof. intros A bs rpf o1 o2 l1 l2 H1 H2. exact (c05_stays bs rpf o1 o2 l1 H1 l2 H2). Qed.
Print Assumptions C05_flushed_files_are_final.

Example C05_example :
  lists_files 1 2 [WriteRows [7]; WriteRows [8]; WriteRows [9]] [(1,[9]); (0,[7;8])]
  /\ lists_files 1 2 [WriteRows [7]; WriteRows [8]; WriteRows [9]] [(0,[7;8]); (1,[9])].
Proof.
  split; unfold lists_files; vm_compute; [apply perm_swap|reflexivity].
Qed.

(* the decimal stem of a file name is read back as the same index *)
Theorem C05_file_name_round_trip :
  forall n : nat, int_of_stem (file_stem n) = Some n.
Proof. exact stem_roundtrip. Qed.
Print Assumptions C05_file_name_round_trip.

(* ---------------------------------------------------------------- C06 *)
(* [stable_sort_of le l out] (Prelude.v): out is ordered by le and for every row
   the rows with an equal key occur in out exactly as in l, in the same order. *)
Theorem C06_sort_is_the_stable_sort :
  forall (A : Type) (sp : sorting A) (batch_size rows_per_file : nat)
         (rebatch : list A -> list (list A)) (tables : list (list A)),
    batching_ok rebatch ->
    exists ops,
      sort_ops KFile batch_size rows_per_file sp (table_sort_by sp) rebatch tables = Some ops
      /\ forall bs' rpf' listing, lists_files bs' rpf' ops listing ->
           stable_sort_of (row_leb sp) (concat tables) (concat (file_tables listing)).
Proof. exact (@c06_read). Qed.
Print Assumptions C06_sort_is_the_stable_sort.

(* in particular it is a permutation of the source rows *)
Theorem C06_sort_is_a_permutation :
  forall (A : Type) (sp : sorting A) (l out : list A),
    stable_sort_of (row_leb sp) l out -> Permutation l out.
Proof.
  intros A sp l out. exact (stable_sort_perm (row_leb sp) (row_leb_total sp) (row_leb_trans sp) l out).
Qed.
Print Assumptions C06_sort_is_a_permutation.

(* with a caller-provided local sort (table_sort_override) that respects the order *)
Theorem C06_sort_with_override :
  forall (A : Type) (sp : sorting A) (batch_size rows_per_file : nat)
         (local_sort : list A -> list A) (rebatch : list A -> list (list A)) (tables : list (list A)),
    batching_ok rebatch ->
    (forall t, In t tables -> StronglySorted (leP (row_leb sp)) (local_sort t)) ->
    exists ops,
      sort_ops KFile batch_size rows_per_file sp local_sort rebatch tables = Some ops
      /\ stable_sort_of (row_leb sp) (concat (map local_sort tables)) (written ops).
Proof. exact (@c06_override). Qed.
Print Assumptions C06_sort_with_override.

Definition ex_sorting : sorting (Z * Z) := [(fst, true)].
Example C06_example :
  batching_ok (@chunk (Z * Z) 2) /\
  option_map (@written _)
    (sort_ops KFile 4 4 ex_sorting (table_sort_by ex_sorting) (chunk 2)
       [[(1,1);(3,2);(3,3)]; [(3,4);(2,5)]; []; [(1,6)]]%Z)
  = Some [(3,2);(3,3);(3,4);(2,5);(1,1);(1,6)]%Z.
Proof. split; [apply chunk_ok; lia|vm_compute; reflexivity]. Qed.

(* Finding: an empty record batch in the middle of a fragment makes the merge
   drop the rest of the fragment (compute.py:78-82). *)
Theorem C06_empty_batch_drops_rows_refuted :
  exists (sp : sorting Z) (frags : list (list (list Z))) out,
    merge_batches sp frags = Some out /\ ~ Permutation (concat (concat frags)) out.
Proof.
  exists [((fun z => z), false)], [[[1%Z]; []; [2%Z]]], [1%Z]. split; [reflexivity|].
  intros P. apply Permutation_length in P. discriminate.
Qed.
Print Assumptions C06_empty_batch_drops_rows_refuted.

(* ---------------------------------------------------------------- C07 *)
Theorem C07_sort_does_not_depend_on_the_split :
  forall (A : Type) (sp : sorting A) bs1 rpf1 rb1 (ts1 : list (list A)) bs2 rpf2 rb2 ts2 ops1 ops2,
    batching_ok rb1 -> batching_ok rb2 -> concat ts1 = concat ts2 ->
    sort_ops KFile bs1 rpf1 sp (table_sort_by sp) rb1 ts1 = Some ops1 ->
    sort_ops KFile bs2 rpf2 sp (table_sort_by sp) rb2 ts2 = Some ops2 ->
    written ops1 = written ops2.
Proof. exact (@c07). Qed.
Print Assumptions C07_sort_does_not_depend_on_the_split.

Example C07_example :
  concat [[(1,1);(3,2)];[(3,3)]]%Z = concat [[(1,1)];[(3,2);(3,3)]]%Z /\
  (exists o, sort_ops KFile 4 4 ex_sorting (table_sort_by ex_sorting) (chunk 2) [[(1,1);(3,2)];[(3,3)]]%Z = Some o) /\
  (exists o, sort_ops KFile 1 2 ex_sorting (table_sort_by ex_sorting) (chunk 1) [[(1,1)];[(3,2);(3,3)]]%Z = Some o).
Proof. repeat split; vm_compute; eexists; reflexivity. Qed.

(* ---------------------------------------------------------------- C08 *)
(* Finding: with a file source of two tables and a memory sink the result is not
   sorted (compute.py:23-29 takes the intermediate kind from the sink). *)
Theorem C08_memory_sink_not_sorted_refuted :
  exists (sp : sorting Z) (tables : list (list Z)) ops,
    sort_ops KMem 4 4 sp (table_sort_by sp) (chunk 4) tables = Some ops
    /\ ~ StronglySorted (leP (row_leb sp)) (mem_read (mem_run 4 ops)).
Proof.
  exists [((fun z => z), false)], [[2%Z]; [1%Z]], [WriteBatch [2%Z]; WriteBatch [1%Z]; Flush].
  split; [reflexivity|]. vm_compute. intros H. inversion H as [|? ? _ F]; subst.
  inversion F as [|? ? E _]; subst. discriminate.
Qed.
Print Assumptions C08_memory_sink_not_sorted_refuted.

(* what a memory sink receives in general: the locally sorted tables, one after the other *)
Theorem C08_memory_sink_behaviour :
  forall (A : Type) (sp : sorting A) batch_size rows_per_file rebatch (tables : list (list A)),
    batching_ok rebatch ->
    exists ops,
      sort_ops KMem batch_size rows_per_file sp (table_sort_by sp) rebatch tables = Some ops
      /\ mem_read (mem_run batch_size ops) = concat (map (table_sort_by sp) tables).
Proof. exact (@c08_memory). Qed.
Print Assumptions C08_memory_sink_behaviour.

(* Missing from C08: file source with several tables and memory sink, which is false. *)
Theorem C08_memory_to_memory_partial :
  forall (A : Type) (sp : sorting A) batch_size rows_per_file rebatch (table : list A),
    exists ops,
      sort_ops KMem batch_size rows_per_file sp (table_sort_by sp) rebatch [table] = Some ops
      /\ forall bs', stable_sort_of (row_leb sp) table (mem_read (mem_run bs' ops)).
Proof. exact (@c08_single). Qed.
Print Assumptions C08_memory_to_memory_partial.

(* ---------------------------------------------------------------- C09 *)
(* [rows_in_page key lo hi [] ts] (CacheSpec.v): the rows whose key has rank in
   [lo, hi), where the rank counts the distinct keys of earlier fragments and the
   smaller distinct keys of the row's own fragment. *)
Theorem C09_page_contents :
  forall (A : Type) (key : A -> Z) (keep : A -> bool) (limit offset : nat) (tables : list (list A)),
    limit <> 0 ->
    concat (paginate_index key keep (Some limit) offset tables)
    = rows_in_page key offset (offset + limit) [] (map (filter keep) tables).
Proof. exact (@paginate_some). Qed.
Print Assumptions C09_page_contents.

Theorem C09_no_limit :
  forall (A : Type) (key : A -> Z) (keep : A -> bool) (limit : option nat) (offset : nat)
         (tables : list (list A)) (hi : nat),
    limit = None \/ limit = Some 0 -> length (concat tables) <= hi ->
    concat (paginate_index key keep limit offset tables)
    = rows_in_page key offset hi [] (map (filter keep) tables).
Proof. exact (@paginate_none). Qed.
Print Assumptions C09_no_limit.

Example C09_example :
  concat (paginate_index (@fst Z Z) (fun _ => true) (Some 2) 1
            [[(2,1);(1,2);(2,3)]; [(5,4);(4,5)]]%Z) = [(2,1);(2,3);(4,5)]%Z.
Proof. reflexivity. Qed.

(* ---------------------------------------------------------------- C10 *)
Theorem C10_pages_partition_the_rows :
  forall (A : Type) (key : A -> Z) (keep : A -> bool) (n k : nat) (tables : list (list A)),
    0 < n -> length (concat tables) <= k * n ->
    Permutation (concat (map (filter keep) tables))
      (concat (map (fun i => concat (paginate_index key keep (Some n) (i * n) tables)) (seq 0 k))).
Proof. exact (@c10). Qed.
Print Assumptions C10_pages_partition_the_rows.

Theorem C10_pages_keep_order_if_fragments_sorted :
  forall (A : Type) (key : A -> Z) (keep : A -> bool) (n k : nat) (tables : list (list A)),
    0 < n -> length (concat tables) <= k * n ->
    Forall (StronglySorted (fun a b => (key a <= key b)%Z)) tables ->
    concat (map (fun i => concat (paginate_index key keep (Some n) (i * n) tables)) (seq 0 k))
    = filter keep (concat tables).
Proof. exact (@c10_order). Qed.
Print Assumptions C10_pages_keep_order_if_fragments_sorted.

Theorem C10_page_has_at_most_limit_keys :
  forall (A : Type) (key : A -> Z) (keep : A -> bool) (n offset : nat) (tables : list (list A)),
    0 < n -> length (distinct_keys key (concat (paginate_index key keep (Some n) offset tables))) <= n.
Proof. exact (@c10_bound). Qed.
Print Assumptions C10_page_has_at_most_limit_keys.

Theorem C10_a_key_is_never_split_over_pages :
  forall (A : Type) (key : A -> Z) (keep : A -> bool) (n offset : nat) (tables : list (list A)) (a b : A),
    0 < n -> aligned key tables ->
    In a (concat (paginate_index key keep (Some n) offset tables)) ->
    In b (concat tables) -> keep b = true -> key a = key b ->
    In b (concat (paginate_index key keep (Some n) offset tables)).
Proof. exact (@c10_whole_keys). Qed.
Print Assumptions C10_a_key_is_never_split_over_pages.

Example C10_example :
  aligned (@fst Z Z) [[(1,1);(1,2);(2,3)]; [(4,4);(5,5)]]%Z /\
  Forall (StronglySorted (fun a b : Z * Z => (fst a <= fst b)%Z)) [[(1,1);(1,2);(2,3)]; [(4,4);(5,5)]]%Z /\
  map (fun i => concat (paginate_index (@fst Z Z) (fun _ => true) (Some 3) (i * 3)
                          [[(1,1);(1,2);(2,3)]; [(4,4);(5,5)]]%Z)) (seq 0 2)
  = [[(1,1);(1,2);(2,3);(4,4)]; [(5,5)]]%Z.
Proof.
  split; [|split; [repeat (constructor; try (simpl; lia))|reflexivity]].
  intros [|[|i]] [|[|j]] ti tj a b Hi Hj Ha Hb E; auto; simpl in *;
    try (destruct i; discriminate); try (destruct j; discriminate);
    injection Hi as <-; injection Hj as <-; simpl in *; intuition (subst; simpl in *; lia).
Qed.

(* ---------------------------------------------------------------- C51 *)
Theorem C51_memory_sort_by :
  forall (A : Type) (sp : sorting A) (batch_size : nat) (ops : list (wop A)),
    stable_sort_of (row_leb sp) (mem_read (mem_run batch_size ops))
      (mem_read (mem_sort_by (table_sort_by sp) (mem_run batch_size ops))).
Proof. exact (@mem_sort_spec). Qed.
Print Assumptions C51_memory_sort_by.

(* a file cache is sorted file by file; files keep their position and their rows *)
Theorem C51_file_sort_by :
  forall (A : Type) (sp : sorting A) (batch_size rows_per_file : nat) (ops : list (wop A)) (l1 l2 : dir A),
    lists_files batch_size rows_per_file ops l1 ->
    Permutation l2 (f_dir (file_sort_by (table_sort_by sp) (file_run batch_size rows_per_file ops))) ->
    Forall2 (stable_sort_of (row_leb sp)) (file_tables l1) (file_tables l2).
Proof. exact (@file_sort_spec). Qed.
Print Assumptions C51_file_sort_by.

Example C51_example :
  f_dir (file_sort_by (table_sort_by ex_sorting)
           (file_run 1 2 [WriteRows [(1,1)]; WriteRows [(2,2)]; WriteRows [(3,3)]]%Z))
  = [(0%nat, [(2,2);(1,1)]); (1%nat, [(3,3)])]%Z.
Proof. reflexivity. Qed.
