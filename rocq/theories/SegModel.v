(* Model of valor_lite/semantic_segmentation: annotations, loader, builders,
   evaluator (labels, counts, filter, confusion matrix, metrics). Definitions only. *)
From Verif Require Import Prelude CacheModel Counting ClsModel FlowModel DetModel DetFlowModel.
From Coq Require Import QArith String.
From Coq Require List.
Local Open Scope nat_scope.
Local Open Scope list_scope.

(* np.uint64 arithmetic: values are kept modulo 2^64 *)
Definition two64 : Z := (2 ^ 64)%Z.
Definition u64 (z : Z) : Z := (z mod two64)%Z.

(* ------------------------------------------------------------------ *)
(** * Annotations *)

(* metadata dictionaries: field name to value (values are only looked at by filter
   expressions; they are strings here). None and {} behave alike in the code. *)
Notation meta := (list (string * string)).
Definition meta_get (m : meta) (k : string) : option string :=
  option_map snd (find (fun kv => String.eqb k (fst kv)) m).
(* {**a, **b}: b wins *)
Definition meta_merge (a b : meta) : meta := b ++ a.

(* models: semantic_segmentation/annotation.py:9-38 Bitmask. The mask is its shape
   and its pixels in row-major order (what mask.flatten() returns); a numpy array
   has as many pixels as its shape says, see [array_ok] in SegSpec.v. *)
Record bitmask : Type := MkBM {
  bm_label : string;
  bm_shape : list Z;
  bm_bits : list bool;
  bm_meta : meta
}.

(* models: annotation.py:41-80 Segmentation *)
Record segmentation : Type := MkSeg {
  sg_uid : string;
  sg_gts : list bitmask;
  sg_pds : list bitmask;
  sg_shape : list Z;
  sg_size : Z;
  sg_meta : meta
}.

(* np.logical_and, |, .any(), .sum() on flattened masks of the same shape *)
Definition band (a b : list bool) : list bool := map (fun p => fst p && snd p) (combine a b).
Definition bor (a b : list bool) : list bool := map (fun p => fst p || snd p) (combine a b).
Definition bany (a : list bool) : bool := existsb (fun b => b) a.
Definition bsum (a : list bool) : Z := Z.of_nat (countb (fun b => b) a).
(* mask[overlap] = False *)
Definition bclear (a overlap : list bool) : list bool :=
  map (fun p => fst p && negb (snd p)) (combine a overlap).

Definition set_bits (b : bitmask) (bits : list bool) : bitmask :=
  MkBM (bm_label b) (bm_shape b) bits (bm_meta b).

(* models: annotation.py:93-114 _validate_bitmasks, the loop from [acc] on;
   [None] is the ValueError for a wrong shape. The warning (115-123) has no effect
   on the data; see SegWarnModel.v. The masks are changed in place; here the changed
   list is returned ([hvalidate] below has shared arrays). *)
Fixpoint validate_loop (shape : list Z) (acc : option (list bool)) (bs : list bitmask)
    : option (list bitmask) :=
  match bs with
  | [] => Some []
  | b :: t =>
      if list_eq_dec Z.eq_dec shape (bm_shape b) then
        match acc with
        | None => option_map (cons b) (validate_loop shape (Some (bm_bits b)) t)
        | Some a =>
            if bany (band a (bm_bits b))
            then option_map (cons (set_bits b (bclear (bm_bits b) (band a (bm_bits b)))))
                            (validate_loop shape (Some a) t)
            else option_map (cons b) (validate_loop shape (Some (bor a (bm_bits b))) t)
        end
      else None
  end.
Definition validate_bitmasks (shape : list Z) (bs : list bitmask) : option (list bitmask) :=
  validate_loop shape None bs.

(* models: annotation.py:82-91 __post_init__ *)
Definition make_segmentation (uid : string) (gts pds : list bitmask) (shape : list Z) (m : meta)
    : option segmentation :=
  match shape with
  | [h; w] =>
      if ((h <=? 0) || (w <=? 0))%Z%bool then None
      else match validate_bitmasks shape gts with
           | None => None
           | Some gts' =>
               match validate_bitmasks shape pds with
               | None => None
               | Some pds' => Some (MkSeg uid gts' pds' shape (h * w)%Z m)
               end
           end
  | _ => None
  end.

(* The same with numpy arrays as shared objects: a mask refers to an array, several
   masks may refer to the same one. [nth_error] is never [None] in Python (there are
   no dangling references); it is treated like the exception. *)
Record harray : Type := MkArr { ar_shape : list Z; ar_bits : list bool }.
Record hmask : Type := MkHM { hm_label : string; hm_ref : nat; hm_meta : meta }.
Definition hset (h : list harray) (r : nat) (bits : list bool) : list harray :=
  firstn r h ++ match skipn r h with [] => [] | a :: t => MkArr (ar_shape a) bits :: t end.
(* models: annotation.py:93-114; returns the arrays afterwards and whether no
   exception was raised *)
Fixpoint hvalidate (shape : list Z) (acc : option (list bool)) (bs : list hmask) (h : list harray)
    : list harray * bool :=
  match bs with
  | [] => (h, true)
  | b :: t =>
      match nth_error h (hm_ref b) with
      | None => (h, false)
      | Some a =>
          if list_eq_dec Z.eq_dec shape (ar_shape a) then
            match acc with
            | None => hvalidate shape (Some (ar_bits a)) t h
            | Some m =>
                if bany (band m (ar_bits a))
                then hvalidate shape (Some m) t (hset h (hm_ref b) (bclear (ar_bits a) (band m (ar_bits a))))
                else hvalidate shape (Some (bor m (ar_bits a))) t h
            end
          else (h, false)
      end
  end.
(* models: annotation.py:82-91 *)
Definition hmake (gts pds : list hmask) (shape : list Z) (h : list harray) : list harray * bool :=
  match shape with
  | [x; y] =>
      if ((x <=? 0) || (y <=? 0))%Z%bool then (h, false)
      else match hvalidate shape None gts h with
           | (h1, true) => hvalidate shape None pds h1
           | (h1, false) => (h1, false)
           end
  | _ => (h, false)
  end.

(* ------------------------------------------------------------------ *)
(** * Pixel counts of one datum *)

(* a 2-D uint64 array, read at indices within its shape *)
Notation matrix := (nat -> nat -> Z).
Definition mzero : matrix := fun _ _ => 0%Z.
Definition mset (m : matrix) (i j : nat) (v : Z) : matrix :=
  fun i' j' => if Nat.eqb i i' && Nat.eqb j j' then u64 v else m i' j'.

Definition zsum (l : list Z) : Z := fold_right Z.add 0%Z l.

(* array.any(axis=0) of stacked masks with N pixels *)
Definition any_axis0 (N : nat) (masks : list (list bool)) : list bool :=
  fold_left bor masks (repeat false N).

(* models: semantic_segmentation/computation.py:5-59 compute_intermediates.
   [gls]/[pls] are the label ids; assignments through repeated indices keep the
   last value, and an assignment through no index does nothing. *)
Definition compute_intermediates (N : nat) (gts pds : list (list bool)) (gls pls : list nat) : matrix :=
  let inter (g p : list bool) := bsum (band g p) in
  let background := bsum (map negb (bor (any_axis0 N gts) (any_axis0 N pds))) in
  let m0 := mset mzero 0 0 background in
  let m1 := fold_left (fun m gl => fold_left
                (fun m pl => mset m (S (fst gl)) (S (fst pl)) (inter (snd gl) (snd pl)))
                (combine pls pds) m)
              (combine gls gts) m0 in
  let m2 := fold_left (fun m pl =>
                mset m 0 (S (fst pl)) (bsum (snd pl) - zsum (map (fun g => inter g (snd pl)) gts))%Z)
              (combine pls pds) m1 in
  fold_left (fun m gl =>
                mset m (S (fst gl)) 0 (bsum (snd gl) - zsum (map (fun p => inter (snd gl) p) pds))%Z)
            (combine gls gts) m2.

(* ------------------------------------------------------------------ *)
(** * Loader *)

(* models: semantic_segmentation/shared.py:32-64, one row of the cache; [s_meta] are
   the metadata columns *)
Record srow : Type := MkS {
  s_uid : string;
  s_datum : Z;
  s_gt_label : option string;
  s_gt : Z;
  s_pd_label : option string;
  s_pd : Z;
  s_count : Z;
  s_meta : meta
}.

(* models: loader.py:57-59, 64-66: registers the labels, returns their ids *)
Fixpoint add_labels (labels : list string) (vs : list string) : list string * list nat :=
  match vs with
  | [] => (labels, [])
  | v :: t =>
      let '(labels1, i) := add_label labels v in
      let '(labels2, is) := add_labels labels1 t in
      (labels2, i :: is)
  end.

(* models: loader.py:68-94: np.stack of the flattened masks, one empty mask if
   there are none *)
Definition stack_masks (size : Z) (bs : list bitmask) : list (list bool) :=
  match bs with
  | [] => [repeat false (Z.to_nat size)]
  | _ :: _ => map bm_bits bs
  end.

(* models: loader.py:109-118, gt_metadata.get(idx, {}): the last annotation with
   that label and with metadata *)
Definition label_meta (labels : list string) (bs : list bitmask) (i : nat) : meta :=
  fold_left (fun acc b =>
      match bm_meta b with
      | [] => acc
      | _ :: _ => match index_of (bm_label b) labels with
                  | Some j => if Nat.eqb j i then bm_meta b else acc
                  | None => acc      (* unreachable: the label was registered *)
                  end
      end) bs [].

(* models: loader.py:120-201, the rows of one datum *)
Definition seg_rows (s : segmentation) (datum : nat) (labels : list string) (counts : matrix)
    : list srow :=
  let n := List.length labels in
  let dm := sg_meta s in
  let gm := label_meta labels (sg_gts s) in
  let pm := label_meta labels (sg_pds s) in
  flat_map (fun i =>
      flat_map (fun j =>
          if (0 <? counts (S i) (S j))%Z then
            [MkS (sg_uid s) (Z.of_nat datum) (nth_error labels i) (Z.of_nat i)
                 (nth_error labels j) (Z.of_nat j) (counts (S i) (S j))
                 (meta_merge (meta_merge dm (gm i)) (pm j))]
          else []) (seq 0 n)
      ++ [MkS (sg_uid s) (Z.of_nat datum) (nth_error labels i) (Z.of_nat i) None (-1)
              (counts (S i) 0) (meta_merge dm (gm i));
          MkS (sg_uid s) (Z.of_nat datum) None (-1) (nth_error labels i) (Z.of_nat i)
              (counts 0 (S i)) (meta_merge (meta_merge dm (gm i)) (pm i))]) (seq 0 n)
  ++ [MkS (sg_uid s) (Z.of_nat datum) None (-1) None (-1) (counts 0 0) dm].

(* models: loader.py:15-25 state *)
Record sloader : Type := MkSL { sl_labels : list string; sl_count : nat; sl_writes : list (list srow) }.
Definition sloader_init : sloader := MkSL [] 0 [].

(* models: loader.py:52-205, one iteration of add_data *)
Definition seg_add_one (l : sloader) (s : segmentation) : sloader :=
  let '(labels1, gls) := add_labels (sl_labels l) (map bm_label (sg_gts s)) in
  let '(labels2, pls) := add_labels labels1 (map bm_label (sg_pds s)) in
  let counts := compute_intermediates (Z.to_nat (sg_size s))
                  (stack_masks (sg_size s) (sg_gts s)) (stack_masks (sg_size s) (sg_pds s)) gls pls in
  MkSL labels2 (S (sl_count l)) (sl_writes l ++ [seg_rows s (sl_count l) labels2 counts]).

(* models: loader.py:35-205 add_data *)
Definition seg_add_data (l : sloader) (ss : list segmentation) : sloader := fold_left seg_add_one ss l.

(* ------------------------------------------------------------------ *)
(** * Evaluator *)

(* models: semantic_segmentation/shared.py:82-115 extract_labels without override *)
Definition seg_extract_labels (tables : list (list srow)) : ldict :=
  fold_left
    (fun d t => ldict_update (ldict_update d (det_table_labels s_gt s_gt_label t))
                             (det_table_labels s_pd s_pd_label t))
    tables [].

(* what an evaluator reads: the tables of its cache and its label map *)
Record seval : Type := MkSE { se_tables : list (list srow); se_labels : ldict }.

(* models: shared.py:118-149 extract_counts; the expressions are predicates on rows,
   [None] is "no expression" *)
Definition expr := option (srow -> bool).
Definition eval_expr (e : expr) (r : srow) : bool := match e with Some f => f r | None => true end.
Definition usum (l : list srow) : Z := u64 (zsum (map s_count l)).
Definition seg_counts (tables : list (list srow)) (datums gts pds : expr) : nat * Z * Z * Z :=
  fold_left (fun '(nd, nt, ng, np) tbl =>
      let t := filter (eval_expr datums) tbl in
      (nd + List.length (nodup Z.eq_dec (map s_datum t)),
       (nt + usum t)%Z,
       (ng + usum (filter (fun r => (0 <=? s_gt r)%Z && eval_expr gts r) t))%Z,
       (np + usum (filter (fun r => (0 <=? s_pd r)%Z && eval_expr pds r) t))%Z))
    tables (0, 0%Z, 0%Z, 0%Z).
(* models: evaluator.py:168-189 get_info (metadata_fields is carried along unchanged) *)
Record sinfo : Type := MkSI { si_rows : nat; si_labels : nat; si_datums : nat; si_pixels : Z;
                              si_gt_pixels : Z; si_pd_pixels : Z }.
Definition seg_info (e : seval) (datums gts pds : expr) : sinfo :=
  let '(nd, nt, ng, np) := seg_counts (se_tables e) datums gts pds in
  MkSI (list_sum_nat (map (@List.length srow) (se_tables e))) (List.length (se_labels e)) nd nt ng np.

(* models: evaluator.py:337-389 _compute_confusion_matrix_intermediate; index 0 is
   "no label", index i+1 the label with id i *)
Definition at_index (i : nat) (id : Z) : bool :=
  match i with O => (id =? -1)%Z | S k => (id =? Z.of_nat k)%Z end.
Definition seg_matrix (tables : list (list srow)) (datums : expr) : matrix :=
  fun i j => u64 (zsum (map (fun tbl =>
    usum (filter (fun r => at_index i (s_gt r) && at_index j (s_pd r)) (filter (eval_expr datums) tbl)))
    tables)).

(* models: evaluator.py:282-333, the ids of one (datum-filtered) table after the
   filter; the label strings stay *)
Definition key_selected (key : srow -> Z) (e : expr) (t : list srow) (r : srow) : bool :=
  match e with
  | None => true
  | Some f => existsb (fun r' => f r' && (s_datum r =? s_datum r')%Z && (key r =? key r')%Z) t
  end.
Definition seg_filter_table (datums gts pds : expr) (tbl : list srow) : list srow :=
  let t := filter (eval_expr datums) tbl in
  map (fun r =>
    MkS (s_uid r) (s_datum r)
        (s_gt_label r) (if key_selected s_gt gts t r then s_gt r else (-1)%Z)
        (s_pd_label r) (if key_selected s_pd pds t r then s_pd r else (-1)%Z)
        (s_count r) (s_meta r)) t.

(* ------------------------------------------------------------------ *)
(** * Builders *)

Record smb : Type := MkSMB { smb_labels : list string; smb_count : nat; smb_writer : mem_state srow }.
(* models: evaluator.py:44-68 in_memory *)
Definition smb_init : smb := MkSMB [] 0 mem_init.
Definition smb_add (bs : nat) (b : smb) (ss : list segmentation) : smb :=
  let l := seg_add_data (MkSL (smb_labels b) (smb_count b) []) ss in
  MkSMB (sl_labels l) (sl_count l) (fold_left (mem_write_rows bs) (sl_writes l) (smb_writer b)).
(* models: evaluator.py:117-150 finalize on a memory writer; [override] is
   index_to_label_override. There is no check for an earlier finalize. *)
Definition smb_finalize (override : option ldict) (b : smb) : smb * fresult seval :=
  let w := mem_flush (smb_writer b) in
  let b' := MkSMB (smb_labels b) (smb_count b) w in
  if Nat.eqb (List.length (m_table w)) 0 then (b', EmptyCache)
  else (b', Done (MkSE [m_table w]
                    (match override with Some d => d | None => seg_extract_labels [m_table w] end))).

Record sfb : Type := MkSFB { sfb_labels : list string; sfb_count : nat; sfb_writer : file_state srow }.
(* models: evaluator.py:70-115 persistent *)
Definition sfb_init : sfb := MkSFB [] 0 file_init.
Definition sfb_add (bs rpf : nat) (b : sfb) (ss : list segmentation) : sfb :=
  let l := seg_add_data (MkSL (sfb_labels b) (sfb_count b) []) ss in
  MkSFB (sl_labels l) (sl_count l) (fold_left (file_write_rows bs rpf) (sl_writes l) (sfb_writer b)).
(* models: evaluator.py:117-150 finalize on a file writer; the evaluator reads the
   files when needed: [se_tables] is what it reads while the directory is unchanged *)
Definition sfb_finalize (override : option ldict) (b : sfb) : sfb * fresult seval :=
  let w := file_flush (sfb_writer b) in
  let b' := MkSFB (sfb_labels b) (sfb_count b) w in
  if Nat.eqb (file_count_rows (f_dir w)) 0 then (b', EmptyCache)
  else let tables := file_tables (f_dir w) in
       (b', Done (MkSE tables (match override with Some d => d | None => seg_extract_labels tables end))).

(* models: evaluator.py:191-236 load from the directory [d] *)
Definition seg_load (d : list (nat * list srow)) (override : option ldict) : seval :=
  MkSE (file_tables d) (match override with Some o => o | None => seg_extract_labels (file_tables d) end).

(* models: evaluator.py:238-335 filter: the filtered tables are written with
   write_table to a new cache of the same kind, which is finalized with the labels
   of the source *)
Definition seg_filter_mem (bs : nat) (e : seval) (datums gts pds : expr) : fresult seval :=
  snd (smb_finalize (Some (se_labels e))
        (MkSMB [] 0 (fold_left (mem_step bs)
                       (map (fun t => WriteTable (seg_filter_table datums gts pds t)) (se_tables e)) mem_init))).
Definition seg_filter_build (bs rpf : nat) (e : seval) (datums gts pds : expr) : sfb * fresult seval :=
  sfb_finalize (Some (se_labels e))
        (MkSFB [] 0 (fold_left (file_step bs rpf)
                       (map (fun t => WriteTable (seg_filter_table datums gts pds t)) (se_tables e)) file_init)).
Definition seg_filter_file (bs rpf : nat) (e : seval) (datums gts pds : expr) : fresult seval :=
  snd (seg_filter_build bs rpf e datums gts pds).
(* the directory written by the filter *)
Definition seg_filter_dir (bs rpf : nat) (e : seval) (datums gts pds : expr) : list (nat * list srow) :=
  f_dir (sfb_writer (fst (seg_filter_build bs rpf e datums gts pds))).
(* models: evaluator.py:158, 354: a file-backed evaluator reads the files of its
   directory at each call; [d] is what they contain at that time *)
Definition seg_reads (e : seval) (d : list (nat * list srow)) : seval := MkSE (file_tables d) (se_labels e).

(* ------------------------------------------------------------------ *)
(** * Metrics *)

(* np.divide(a, b, where=b > 1e-9, out=zeros) on uint64 arrays; quotients are exact
   rationals here *)
Definition qdiv (a b : Z) : Q := if (0 <? b)%Z then (inject_Z a / inject_Z b)%Q else 0%Q.

Definition mrow (n : nat) (m : matrix) (i : nat) : Z := u64 (zsum (map (m i) (seq 0 (S n)))).
Definition mcol (n : nat) (m : matrix) (j : nat) : Z := u64 (zsum (map (fun i => m i j) (seq 0 (S n)))).

(* models: computation.py:62-165 compute_metrics, entry by entry *)
Definition m_iou (n : nat) (m : matrix) (i j : nat) : Q :=
  let inter := m (S i) (S j) in
  qdiv inter (u64 (mrow n m (S i) + mcol n m (S j) - inter)).
Definition m_unmatched_pd (n : nat) (m : matrix) (j : nat) : Q := qdiv (m 0 (S j)) (mcol n m (S j)).
Definition m_unmatched_gt (n : nat) (m : matrix) (i : nat) : Q := qdiv (m (S i) 0) (mrow n m (S i)).
Definition m_precision (n : nat) (m : matrix) (i : nat) : Q := qdiv (m (S i) (S i)) (mcol n m (S i)).
Definition m_recall (n : nat) (m : matrix) (i : nat) : Q := qdiv (m (S i) (S i)) (mrow n m (S i)).
Definition m_f1 (n : nat) (m : matrix) (i : nat) : Q :=
  let p := m_precision n m i in
  let r := m_recall n m i in
  if Qle_bool (p + r) 0 then 0%Q else ((2 * (p * r)) / (p + r))%Q.
Definition m_accuracy (n : nat) (m : matrix) : Q :=
  let pixels := u64 (zsum (map (fun i => zsum (map (m i) (seq 0 (S n)))) (seq 0 (S n)))) in
  let tp := u64 (zsum (map (fun i => m (S i) (S i)) (seq 0 n))) in
  qdiv (u64 (tp + m 0 0)) pixels.
(* ious.diagonal().mean(): nan ([None]) without labels *)
Definition m_miou (n : nat) (m : matrix) : option Q :=
  match n with
  | O => None
  | S _ => Some (fold_right Qplus 0%Q (map (fun i => m_iou n m i i) (seq 0 n)) / inject_Z (Z.of_nat n))%Q
  end.

(* models: utilities.py:6-88; [None]: KeyError or IndexError. Precision, recall, f1
   and iou are lists of (label, value) in the order of the label dictionary. *)
Record sreport : Type := MkSR {
  sr_accuracy : Q;
  sr_confusion : list (option string * list (option string * Q));
  sr_unmatched_pd : list (option string * Q);
  sr_unmatched_gt : list (option string * Q);
  sr_miou : option Q;
  sr_precision : list (option string * Q);
  sr_recall : list (option string * Q);
  sr_f1 : list (option string * Q);
  sr_iou : list (option string * Q)
}.
Fixpoint all_some {A} (l : list (option A)) : option (list A) :=
  match l with
  | [] => Some []
  | Some x :: t => option_map (cons x) (all_some t)
  | None :: _ => None
  end.
Definition by_range (d : ldict) (n : nat) {V} (f : nat -> V) : option (list (option string * V)) :=
  all_some (map (fun i => option_map (fun l => (l, f i)) (ldict_get d (Z.of_nat i))) (seq 0 n)).
(* precision[label_idx] for label_idx, label in index_to_label.items(): an index out
   of range is an IndexError *)
Definition by_items (d : ldict) (n : nat) (f : nat -> Q) : option (list (option string * Q)) :=
  all_some (map (fun kv => if ((0 <=? fst kv) && (fst kv <? Z.of_nat n))%Z%bool
                           then Some (snd kv, f (Z.to_nat (fst kv))) else None) d).
Definition seg_report (d : ldict) (m : matrix) : option sreport :=
  let n := List.length d in
  match by_range d n (fun i => by_range d n (m_iou n m i)),
        by_range d n (m_unmatched_pd n m), by_range d n (m_unmatched_gt n m),
        by_items d n (m_precision n m), by_items d n (m_recall n m), by_items d n (m_f1 n m),
        by_items d n (fun i => m_iou n m i i) with
  | Some cm, Some up, Some ug, Some p, Some r, Some f, Some u =>
      match all_some (map (fun x => option_map (fun row => (fst x, row)) (snd x)) cm) with
      | Some cm' => Some (MkSR (m_accuracy n m) cm' up ug (m_miou n m) p r f u)
      | None => None
      end
  | _, _, _, _, _, _, _ => None
  end.
(* models: evaluator.py:391-414 compute_precision_recall_iou *)
Definition seg_compute (e : seval) (datums : expr) : option sreport :=
  seg_report (se_labels e) (seg_matrix (se_tables e) datums).

(* ------------------------------------------------------------------ *)
(** * Sequences of calls on a builder *)

Inductive scall : Type :=
| SAdd (ss : list segmentation)          (* loader.add_data *)
| SFinal (override : option ldict).      (* loader.finalize *)
Definition smb_call (bs : nat) (b : smb) (c : scall) : smb :=
  match c with SAdd ss => smb_add bs b ss | SFinal o => fst (smb_finalize o b) end.
Definition sfb_call (bs rpf : nat) (b : sfb) (c : scall) : sfb :=
  match c with SAdd ss => sfb_add bs rpf b ss | SFinal o => fst (sfb_finalize o b) end.
Definition smb_run (bs : nat) (h : list scall) : smb := fold_left (smb_call bs) h smb_init.
Definition sfb_run (bs rpf : nat) (h : list scall) : sfb := fold_left (sfb_call bs rpf) h sfb_init.
