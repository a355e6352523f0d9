(* Model of the classification Loader/Builder life cycle: add_data and finalize
   over the in-memory and the file-backed caches. *)
From Verif Require Import Prelude CacheModel Counting ClsModel RocModel.
Local Open Scope nat_scope.
Local Open Scope list_scope.

(* models: classification/evaluator.py:289-297, the sort keys of finalize *)
Definition cls_sorting : sorting crow :=
  [(r_score, true); (r_datum, false); (r_gt, false); (r_pd, false)].

(* result of finalize: an evaluator or one of the two exceptions *)
Inductive fresult (E : Type) : Type := Done (e : E) | EmptyCache | AlreadyFinalized | SortFailed.
Arguments Done {E} e.
Arguments EmptyCache {E}.
Arguments AlreadyFinalized {E}.
Arguments SortFailed {E}.

(* the calls of one add_data that reach the writer: the loader bookkeeping is
   [add_data] of ClsModel.v, started without pending writes *)
Definition add_calls (labels : list String.string) (count : nat) (cs : list classification) : loader * bool :=
  add_data (MkLoader labels count []) cs.

Definition label_keys (d : dict) : list nat := map (fun kv => Z.to_nat (fst kv)) d.
Definition curve_ops (c : list cpoint) : list (wop cpoint) := map (fun p => WriteRows [p]) c.

(* ---------------------------------------------------------------- memory *)
(* models: classification/loader.py:15-29, evaluator.py:54-98 (in_memory); a
   memory evaluator keeps immutable arrow tables *)
Record mbuilder : Type := MkMB {
  mb_labels : list String.string; mb_count : nat;
  mb_writer : mem_state crow; mb_inter : mem_state irow; mb_curve : mem_state cpoint }.
Definition mb_init : mbuilder := MkMB [] 0 mem_init mem_init mem_init.
Record mevaluator : Type := MkME { me_table : list crow; me_curve : list cpoint; me_labels : dict }.

(* models: classification/loader.py:39-97 add_data on a memory writer *)
Definition mb_add (bs : nat) (b : mbuilder) (cs : list classification) : mbuilder * bool :=
  let '(l, ok) := add_calls (mb_labels b) (mb_count b) cs in
  (MkMB (ld_labels l) (ld_count l) (fold_left (mem_write_rows bs) (ld_writes l) (mb_writer b))
        (mb_inter b) (mb_curve b), ok).

(* models: classification/evaluator.py:261-321 finalize on memory writers *)
Definition mb_finalize (bs : nat) (rebatch : list irow -> list (list irow)) (b : mbuilder)
    : mbuilder * fresult mevaluator :=
  let w := mem_flush (mb_writer b) in
  let b1 := MkMB (mb_labels b) (mb_count b) w (mb_inter b) (mb_curve b) in
  if Nat.eqb (length (m_table w)) 0 then (b1, EmptyCache)
  else if Nat.ltb 0 (length (m_table (mb_curve b))) then (b1, AlreadyFinalized)
  else
    let w2 := mem_sort_by (table_sort_by cls_sorting) w in
    let tbl := mem_read w2 in
    let labels := extract_labels [tbl] in
    match sort_ops KMem bs bs roc_sorting (table_sort_by roc_sorting) rebatch [map project tbl] with
    | None => (MkMB (mb_labels b) (mb_count b) w2 (mb_inter b) (mb_curve b), SortFailed)
    | Some ops =>
        let inter := mem_flush (fold_left (mem_step bs) ops (mb_inter b)) in
        let curve := roc_curve (label_keys labels) [mem_read inter] in
        let cw := mem_flush (fold_left (mem_step bs) (curve_ops curve) (mb_curve b)) in
        (MkMB (mb_labels b) (mb_count b) w2 inter cw, Done (MkME tbl (mem_read cw) labels))
    end.

(* ----------------------------------------------------------------- files *)
(* models: classification/evaluator.py:100-164 (persistent) *)
Record fbuilder : Type := MkFB {
  fb_labels : list String.string; fb_count : nat;
  fb_writer : file_state crow; fb_inter : file_state irow; fb_curve : file_state cpoint }.
Definition fb_init : fbuilder := MkFB [] 0 file_init file_init file_init.

Definition fb_add (bs rpf : nat) (b : fbuilder) (cs : list classification) : fbuilder * bool :=
  let '(l, ok) := add_calls (fb_labels b) (fb_count b) cs in
  (MkFB (ld_labels l) (ld_count l) (fold_left (file_write_rows bs rpf) (ld_writes l) (fb_writer b))
        (fb_inter b) (fb_curve b), ok).

(* models: classification/evaluator.py:261-321 finalize on file writers; the
   evaluator only keeps the label map, its rows and curve are read from the
   directories when needed. *)
Definition fb_finalize (bs rpf : nat) (rebatch : list irow -> list (list irow)) (b : fbuilder)
    : fbuilder * fresult dict :=
  let w := file_flush (fb_writer b) in
  let b1 := MkFB (fb_labels b) (fb_count b) w (fb_inter b) (fb_curve b) in
  if Nat.eqb (file_count_rows (f_dir w)) 0 then (b1, EmptyCache)
  else if Nat.ltb 0 (file_count_rows (f_dir (fb_curve b))) then (b1, AlreadyFinalized)
  else
    let w2 := file_sort_by (table_sort_by cls_sorting) w in
    let tables := file_tables (f_dir w2) in
    let labels := extract_labels tables in
    match sort_ops KFile bs rpf roc_sorting (table_sort_by roc_sorting) rebatch (map (map project) tables) with
    | None => (MkFB (fb_labels b) (fb_count b) w2 (fb_inter b) (fb_curve b), SortFailed)
    | Some ops =>
        let inter := file_flush (fold_left (file_step bs rpf) ops (fb_inter b)) in
        let curve := roc_curve (label_keys labels) (file_tables (f_dir inter)) in
        let cw := file_flush (fold_left (file_step bs rpf) (curve_ops curve) (fb_curve b)) in
        (MkFB (fb_labels b) (fb_count b) w2 inter cw, Done labels)
    end.

(* what an evaluator of a file cache reads, given the builder's current state *)
Definition fe_tables (b : fbuilder) : list (list crow) := file_tables (f_dir (fb_writer b)).
Definition fe_curve (b : fbuilder) : list (list cpoint) := file_tables (f_dir (fb_curve b)).

(* a user's sequence of calls *)
Inductive call : Type := Add (cs : list classification) | Finalize.
Definition mb_call bs rb (b : mbuilder) (c : call) : mbuilder :=
  match c with Add cs => fst (mb_add bs b cs) | Finalize => fst (mb_finalize bs rb b) end.
Definition fb_call bs rpf rb (b : fbuilder) (c : call) : fbuilder :=
  match c with Add cs => fst (fb_add bs rpf b cs) | Finalize => fst (fb_finalize bs rpf rb b) end.
