(* Model of valor_lite/cache: writers, readers, external sort, pagination.
   Definitions only; no proofs in this file. *)
From Verif Require Import Prelude.

(* ------------------------------------------------------------------ *)
(** * Writers *)

Section Writers.
  Context {A : Type}.   (* a table row *)

  (* The write interface shared by both writers.
     models: cache/ephemeral.py:176-272, cache/persistent.py:379-477.
     [write_columns] (ephemeral.py:193-208, persistent.py:396-411) only converts
     a column dictionary to a batch and calls [write_batch]; it is [WriteBatch]. *)
  Inductive wop : Type :=
  | WriteRows (rows : list A)
  | WriteBatch (batch : list A)
  | WriteTable (table : list A)
  | Flush.

  (* ---------------- in-memory writer ---------------- *)

  (* models: cache/ephemeral.py:141-153 (attributes _table and _buffer) *)
  Record mem_state : Type := MkMem {
    m_table : list A;
    m_buffer : list (list A)
  }.

  (* models: cache/ephemeral.py:155-174 create *)
  Definition mem_init : mem_state := MkMem [] [].

  (* models: cache/ephemeral.py:245-257 write_table (does not touch the buffer) *)
  Definition mem_write_table (s : mem_state) (t : list A) : mem_state :=
    MkMem (m_table s ++ t) (m_buffer s).

  (* models: cache/ephemeral.py:210-243 write_batch *)
  Definition mem_write_batch (bs : nat) (s : mem_state) (b : list A) : mem_state :=
    let size := length b + list_sum_nat (map (@length A) (m_buffer s)) in
    if size <? bs then MkMem (m_table s) (m_buffer s ++ [b])
    else
      match m_buffer s with
      | [] => mem_write_table s b
      | _ :: _ => mem_write_table (MkMem (m_table s) []) (concat (m_buffer s ++ [b]))
      end.

  (* models: cache/ephemeral.py:176-191 write_rows *)
  Definition mem_write_rows (bs : nat) (s : mem_state) (rows : list A) : mem_state :=
    match rows with
    | [] => s
    | _ :: _ => mem_write_batch bs s rows
    end.

  (* models: cache/ephemeral.py:259-272 flush *)
  Definition mem_flush (s : mem_state) : mem_state :=
    match m_buffer s with
    | [] => s
    | _ :: _ => MkMem (m_table s ++ concat (m_buffer s)) []
    end.

  Definition mem_step (bs : nat) (s : mem_state) (o : wop) : mem_state :=
    match o with
    | WriteRows r => mem_write_rows bs s r
    | WriteBatch b => mem_write_batch bs s b
    | WriteTable t => mem_write_table s t
    | Flush => mem_flush s
    end.

  Definition mem_run (bs : nat) (ops : list wop) : mem_state :=
    fold_left (mem_step bs) ops mem_init.

  (* models: cache/ephemeral.py:297-302 to_reader followed by iterate_tables
     (36-60): a memory reader yields exactly one table. *)
  Definition mem_read (s : mem_state) : list A := m_table (mem_flush s).

  (* models: cache/ephemeral.py:274-287 sort_by; [srt] is arrow's sort_by *)
  Definition mem_sort_by (srt : list A -> list A) (s : mem_state) : mem_state :=
    let s' := mem_flush s in MkMem (srt (m_table s')) (m_buffer s').

  (* ---------------- file writer ---------------- *)

  (* A directory: parquet files given by their numeric stem and contents, in
     the order in which the operating system lists them. *)
  Definition dir : Type := list (nat * list A).

  (* models: cache/persistent.py:294-297 (attributes _writer, _buffer, _count)
     together with the directory contents.  [_writer] is represented by the
     index of the file it appends to. *)
  Record file_state : Type := MkFile {
    f_dir : dir;
    f_writer : option nat;
    f_buffer : list (list A);
    f_count : nat
  }.

  (* models: the state right after cache/persistent.py:299-349 create *)
  Definition file_init : file_state := MkFile [] None [] 0.

  (* models: cache/persistent.py:499-506 _generate_next_filename *)
  Definition next_index (d : dir) : nat :=
    match d with
    | [] => 0
    | _ :: _ => S (fold_right Nat.max 0 (map fst d))
    end.

  (* ParquetWriter.write_batch on the open file: rows are appended to it *)
  Definition append_file (d : dir) (i : nat) (rows : list A) : dir :=
    map (fun e => if Nat.eqb (fst e) i then (fst e, snd e ++ rows) else e) d.

  (* models: cache/persistent.py:508-517 _get_or_create_writer *)
  Definition get_writer (s : file_state) : file_state * nat :=
    match f_writer s with
    | Some i => (s, i)
    | None =>
        let i := next_index (f_dir s) in
        (MkFile (f_dir s ++ [(i, [])]) (Some i) (f_buffer s) (f_count s), i)
    end.

  Definition file_append (s : file_state) (rows : list A) : file_state :=
    let '(s', i) := get_writer s in
    MkFile (append_file (f_dir s') i rows) (f_writer s') (f_buffer s') (f_count s').

  (* models: cache/persistent.py:463-477 flush and 519-523 _close_writer *)
  Definition file_flush (s : file_state) : file_state :=
    let s' := match f_buffer s with
              | [] => s
              | _ :: _ => file_append s (concat (f_buffer s))
              end in
    MkFile (f_dir s') None [] 0.

  (* models: cache/persistent.py:413-446 write_batch *)
  Definition file_write_batch (bs rpf : nat) (s : file_state) (b : list A) : file_state :=
    let size := length b + list_sum_nat (map (@length A) (f_buffer s)) in
    if (size <? bs) && (f_count s <? rpf)
    then MkFile (f_dir s) (f_writer s) (f_buffer s ++ [b]) (f_count s)
    else
      let batch := match f_buffer s with
                   | [] => b
                   | _ :: _ => concat (f_buffer s ++ [b])
                   end in
      let s1 := MkFile (f_dir s) (f_writer s) [] (f_count s) in
      let s2 := file_append s1 batch in
      let s3 := MkFile (f_dir s2) (f_writer s2) (f_buffer s2) (f_count s2 + size) in
      if rpf <=? f_count s3 then file_flush s3 else s3.

  (* models: cache/persistent.py:379-394 write_rows *)
  Definition file_write_rows (bs rpf : nat) (s : file_state) (rows : list A) : file_state :=
    match rows with
    | [] => s
    | _ :: _ => file_write_batch bs rpf s rows
    end.

  (* models: cache/persistent.py:448-461 write_table *)
  Definition file_write_table (s : file_state) (t : list A) : file_state :=
    let s' := file_flush s in
    MkFile (f_dir s' ++ [(next_index (f_dir s'), t)]) (f_writer s') (f_buffer s') (f_count s').

  Definition file_step (bs rpf : nat) (s : file_state) (o : wop) : file_state :=
    match o with
    | WriteRows r => file_write_rows bs rpf s r
    | WriteBatch b => file_write_batch bs rpf s b
    | WriteTable t => file_write_table s t
    | Flush => file_flush s
    end.

  Definition file_run (bs rpf : nat) (ops : list wop) : file_state :=
    fold_left (file_step bs rpf) ops file_init.

  (* models: cache/persistent.py:479-497 sort_by (each file in place) *)
  Definition file_sort_by (srt : list A -> list A) (s : file_state) : file_state :=
    let s' := file_flush s in
    MkFile (map (fun e => (fst e, srt (snd e))) (f_dir s')) (f_writer s') (f_buffer s') (f_count s').

  (* models: cache/persistent.py:157-172 iterate_ordered_fragments and 174-194
     iterate_tables: fragments of an arbitrary listing, sorted by int(stem). *)
  Definition frag_leb (x y : nat * list A) : bool := fst x <=? fst y.

  Definition file_tables (listing : dir) : list (list A) :=
    map snd (isort frag_leb listing).

  (* iterate_tables with a row filter: the filter is applied per fragment *)
  Definition file_tables_filtered (flt : A -> bool) (listing : dir) : list (list A) :=
    map (filter flt) (file_tables listing).

  (* models: cache/persistent.py:76-78 count_tables, 68-74 count_rows *)
  Definition file_count_tables (listing : dir) : nat := length listing.
  Definition file_count_rows (listing : dir) : nat :=
    list_sum_nat (map (fun e => length (snd e)) listing).
End Writers.

Arguments wop A : clear implicits.
Arguments mem_state A : clear implicits.
Arguments file_state A : clear implicits.
Arguments dir A : clear implicits.

(* ------------------------------------------------------------------ *)
(** * External sort *)

Section ExtSort.
  Context {A : Type}.

  (* A sort specification in pyarrow format: a numeric column and whether the
     direction is "descending". *)
  Definition sorting : Type := list ((A -> Z) * bool).

  (* arrow's Table.sort_by: stable sort; rows are compared column by column *)
  Fixpoint row_leb (sp : sorting) (a b : A) : bool :=
    match sp with
    | [] => true
    | (col, desc) :: sp' =>
        let x := col a in
        let y := col b in
        if (x =? y)%Z then row_leb sp' a b
        else if desc then (y <? x)%Z else (x <? y)%Z
    end.

  Definition table_sort_by (sp : sorting) (t : list A) : list A := isort (row_leb sp) t.

  (* models: cache/compute.py:32-47 create_sort_key without the trailing
     (batch_idx, row_idx), which are kept as separate components *)
  Definition sort_key (sp : sorting) (a : A) : list Z :=
    map (fun cd : (A -> Z) * bool => if snd cd then (- fst cd a)%Z else fst cd a) sp.

  (* a heap entry (args, batch_idx, row_idx) *)
  Notation entry := (list Z * nat * nat)%type.

  (* Python's tuple comparison of ( *args, batch_idx, row_idx) *)
  Definition entry_leb (x y : entry) : bool :=
    let '(kx, bx, rx) := x in
    let '(ky, by_, ry) := y in
    lex_leb (kx ++ [Z.of_nat bx; Z.of_nat rx]) (ky ++ [Z.of_nat by_; Z.of_nat ry]).

  (* heapq.heappop: returns a smallest entry and the remaining entries *)
  Fixpoint pop_min (h : list entry) : option (entry * list entry) :=
    match h with
    | [] => None
    | x :: t =>
        match pop_min t with
        | None => Some (x, [])
        | Some (m, r) => if entry_leb x m then Some (x, t) else Some (m, x :: r)
        end
    end.

  (* models: cache/compute.py:50-52: per fragment the current batch
     ([None] = iterator exhausted) and the batches still to come *)
  Notation cursor := (option (list A) * list (list A))%type.

  (* next(batch_iterators[i], None) *)
  Definition advance (its : list (list A)) : cursor :=
    match its with
    | [] => (None, [])
    | b :: r => (Some b, r)
    end.

  (* models: cache/compute.py:60-61 and 78-82: key of the first row if the batch
     is neither None nor empty *)
  Definition first_entry (sp : sorting) (i : nat) (c : cursor) : list entry :=
    match fst c with
    | Some (a :: _) => [(sort_key sp a, i, 0)]
    | _ => []
    end.

  Definition set_nth {B} (i : nat) (x : B) (l : list B) : list B :=
    firstn i l ++ match skipn i l with [] => [] | _ :: r => x :: r end.

  (* models: cache/compute.py:64-82, the merge loop.  [fuel] bounds the number
     of iterations; [None] = out of fuel or an index error. The output is the
     sequence of single-row batches handed to sink.write_batch. *)
  Fixpoint merge_loop (sp : sorting) (fuel : nat) (heap : list entry) (cs : list cursor)
    : option (list A) :=
    match pop_min heap with
    | None => Some []
    | Some ((_, bi, ri), heap') =>
        match fuel with
        | 0 => None
        | S fuel' =>
            match nth_error cs bi with
            | Some (Some batch, its) =>
                match nth_error batch ri with
                | Some row =>
                    let ri' := S ri in
                    match nth_error batch ri' with
                    | Some nxt =>
                        option_map (cons row)
                          (merge_loop sp fuel' ((sort_key sp nxt, bi, ri') :: heap') cs)
                    | None =>
                        let c := advance its in
                        option_map (cons row)
                          (merge_loop sp fuel' (first_entry sp bi c ++ heap') (set_nth bi c cs))
                    end
                | None => None
                end
            | _ => None
            end
        end
    end.

  (* models: cache/compute.py:49-62, heap initialisation *)
  Fixpoint init_heap (sp : sorting) (i : nat) (cs : list cursor) : list entry :=
    match cs with
    | [] => []
    | c :: t => first_entry sp i c ++ init_heap sp (S i) t
    end.

  (* models: cache/compute.py:49-84, given the batch iterators of the
     intermediate reader *)
  Definition merge_batches (sp : sorting) (frags : list (list (list A))) : option (list A) :=
    let cs := map advance frags in
    merge_loop sp (length (concat (concat frags))) (init_heap sp 0 cs) cs.

  (* The kind of a cache *)
  Inductive kind : Type := KMem | KFile.

  (* models: cache/compute.py:23-29: locally sorted tables are written to the
     intermediate sink; the result is the list of row sequences, one per batch
     iterator of the intermediate reader (ephemeral.py:121-138 yields one
     iterator over the whole table, persistent.py:258-274 one per file). *)
  Definition intermediate_runs (k : kind) (bs rpf : nat) (locals : list (list A))
    : list (list A) :=
    match k with
    | KMem => [mem_read (mem_run bs (map WriteTable locals))]
    | KFile => file_tables (f_dir (file_flush (file_run bs rpf (map WriteTable locals))))
    end.

  (* models: cache/compute.py:87-157 sort.  [tables] are the source's tables,
     [local_sort] is table_sort_override or sort_by(sorting), [rebatch] is how
     the intermediate reader cuts a run into record batches.  The result is the
     sequence of write operations performed on the sink. *)
  Definition sort_ops (sink : kind) (bs rpf : nat) (sp : sorting)
      (local_sort : list A -> list A) (rebatch : list A -> list (list A))
      (tables : list (list A)) : option (list (wop A)) :=
    if Nat.eqb (length tables) 1
    then Some (map (fun t => WriteTable (local_sort t)) tables ++ [Flush])
    else
      match merge_batches sp (map rebatch (intermediate_runs sink bs rpf (map local_sort tables))) with
      | Some rows => Some (map (fun r => WriteBatch [r]) rows ++ [Flush])
      | None => None
      end.
End ExtSort.

Arguments sorting A : clear implicits.

(* ------------------------------------------------------------------ *)
(** * Pagination *)

Section Paginate.
  Context {A : Type}.
  Variable key : A -> Z.      (* column_key *)

  Fixpoint dedup_sorted (l : list Z) : list Z :=
    match l with
    | [] => []
    | x :: t => match t with
                | y :: _ => if (x =? y)%Z then dedup_sorted t else x :: dedup_sorted t
                | [] => [x]
                end
    end.

  (* pc.unique(col).sort() *)
  Definition sorted_unique (t : list A) : list Z :=
    dedup_sorted (isort Z.leb (map key t)).

  (* models: cache/compute.py:183-211, the loop over (already filtered) tables;
     an IndexError is impossible and represented by dropping the table *)
  Fixpoint paginate_loop (offset limit curr : nat) (tables : list (list A)) : list (list A) :=
    match tables with
    | [] => []
    | tbl :: rest =>
        match tbl with
        | [] => paginate_loop offset limit curr rest
        | _ :: _ =>
            let u := sorted_unique tbl in
            let prev := curr in
            let curr' := curr + length u in
            if curr' <=? offset then paginate_loop offset limit curr' rest
            else if offset + limit <=? prev then []
            else
              let lo := if (prev <? offset) && (offset <? curr')
                        then nth_error u (offset - prev) else None in
              let hi := if (prev <? offset + limit) && (offset + limit <? curr')
                        then nth_error u (offset + limit - prev) else None in
              let cond r :=
                match lo with Some v => (v <=? key r)%Z | None => true end &&
                match hi with Some v => (key r <? v)%Z | None => true end in
              filter cond tbl :: paginate_loop offset limit curr' rest
        end
    end.

  (* models: cache/compute.py:160-211 paginate_index.  [tables] are the stored
     tables, [modifier] the row filter; [limit = None] or [Some 0] are both
     falsy in Python. *)
  Definition paginate_index (modifier : A -> bool) (limit : option nat) (offset : nat)
      (tables : list (list A)) : list (list A) :=
    let total := length (concat tables) in
    let lim := match limit with
               | None | Some 0 => total
               | Some n => n
               end in
    let filtered := map (filter modifier) tables in
    if Nat.eqb offset 0 && (total <=? lim) then filtered
    else if total <=? offset then []
    else paginate_loop offset lim 0 filtered.
End Paginate.

(* ------------------------------------------------------------------ *)
(** * File names *)

From Coq Require Import String Decimal DecimalString DecimalNat.

Section FileNames.
  Local Open Scope nat_scope.
  (* helper of [file_stem]: k leading zeros *)
  Fixpoint pad0 (k : nat) (u : Decimal.uint) : Decimal.uint :=
    match k with 0 => u | S k' => Decimal.D0 (pad0 k' u) end.

  (* models: cache/persistent.py:506: the stem f"{next_index:06d}" *)
  Definition file_stem (n : nat) : string :=
    let u := Nat.to_uint n in
    NilEmpty.string_of_uint (pad0 (6 - Decimal.nb_digits u) u).

  (* models: cache/persistent.py:170 and 505: int(Path(f).stem) *)
  Definition int_of_stem (s : string) : option nat :=
    option_map Nat.of_uint (NilEmpty.uint_of_string s).
End FileNames.
