(* Model of valor_lite/object_detection: IoU, loader, ranking, counts, average
   precision, greedy matching, confusion matrix, filter.  Definitions only.
   Numbers: ids are Z (-1 = absent); scores, IoUs, thresholds and tolerances are Z
   in a fixed unit (every finite double is an integer multiple of 2^-1074); they
   are only compared.  [unit] is the integer that stands for 1.0.  Quotients
   (IoU of boxes and masks, precision, recall) are exact rationals. *)
From Verif Require Import Prelude Counting CacheModel ClsModel.
From Coq Require Import String QArith Qminmax.
Local Open Scope nat_scope.
Local Open Scope list_scope.

(* ------------------------------------------------------------------ *)
(** * Intersection over union *)

(* EPSILON = 1e-9, object_detection/computation.py:8 *)
Definition epsQ : Q := 1 # 1000000000.

(* models: object_detection/annotation.py:48-52, 67-77 BoundingBox.extrema *)
Record box : Type := MkBox { b_xmin : Q; b_xmax : Q; b_ymin : Q; b_ymax : Q }.

(* np.divide(a, b, where=b >= EPSILON, out=zeros) *)
Definition div_where (a b : Q) : Q := if Qlt_le_dec b epsQ then 0%Q else (a / b)%Q.

(* models: object_detection/computation.py:42-79 compute_bbox_iou for one pair *)
Definition bbox_iou (a b : box) : Q :=
  let xmin := Qmax (b_xmin a) (b_xmin b) in
  let ymin := Qmax (b_ymin a) (b_ymin b) in
  let xmax := Qmin (b_xmax a) (b_xmax b) in
  let ymax := Qmin (b_ymax a) (b_ymax b) in
  let width := Qmax 0 (xmax - xmin) in
  let height := Qmax 0 (ymax - ymin) in
  let inter := (width * height)%Q in
  let area1 := ((b_xmax a - b_xmin a) * (b_ymax a - b_ymin a))%Q in
  let area2 := ((b_xmax b - b_xmin b) * (b_ymax b - b_ymin b))%Q in
  let union := (area1 + area2 - inter)%Q in
  div_where inter union.

Definition qnat (n : nat) : Q := inject_Z (Z.of_nat n).

(* models: object_detection/computation.py:106-126 compute_bitmask_iou for one
   pair of flattened masks; union_ is computed by (wrapping) subtraction, which
   never underflows because the intersection is at most each sum *)
Definition bitmask_iou (a b : list bool) : Q :=
  let lhs := countb (fun x => x) a in
  let rhs := countb (fun x => x) b in
  let inter := countb (fun p => fst p && snd p) (combine a b) in
  let union := lhs + rhs - inter in
  div_where (qnat inter) (qnat union).

(* models: object_detection/computation.py:153-176 compute_polygon_iou; the two
   areas are results of shapely, here arguments *)
Definition polygon_iou (inter_area union_area : Q) : Q := div_where inter_area union_area.

(* models: object_detection/loader.py:208-221 (and 235-248, 262-275): the IoUs are
   computed for the list of pairs (for pd in predictions for gt in groundtruths)
   and reshaped to (len(predictions), len(groundtruths)); [None] = index error *)
Definition iou_list {G P V} (f : G -> P -> V) (gts : list G) (pds : list P) : list V :=
  List.concat (map (fun p => map (fun g => f g p) gts) pds).
Definition reshaped {V} (flat : list V) (cols : nat) (i j : nat) : option V :=
  if Nat.ltb j cols then nth_error flat (i * cols + j) else None.

(* ------------------------------------------------------------------ *)
(** * Rows and input *)

(* models: object_detection/shared.py:38-68 and 71-108; [d_prev] is the column
   iou_prev which only ranked tables have (0 in detailed rows) *)
Record drow : Type := MkD {
  d_uid : string;
  d_datum : Z;
  d_gt_uid : option string;
  d_gt : Z;
  d_gt_label : option string;
  d_gl : Z;
  d_pd_uid : option string;
  d_pd : Z;
  d_pd_label : option string;
  d_pl : Z;
  d_score : Z;
  d_iou : Z;
  d_prev : Z
}.

(* models: object_detection/annotation.py:9-238 (geometry and metadata omitted:
   geometry enters through the IoU matrix; the rows with metadata are in
   DetMetaModel.v) *)
Record annotation : Type := MkAnn { a_uid : string; a_labels : list string; a_scores : list Z }.
Record detection : Type := MkDet {
  t_uid : string;
  t_gts : list annotation;
  t_pds : list annotation;
  t_iou : nat -> nat -> Z       (* ious[pidx, gidx] *)
}.

(* models: object_detection/annotation.py:57-65, 126-133, 187-194 __post_init__ (labels and scores) *)
Definition ann_ok (a : annotation) : bool :=
  (negb (Nat.eqb (List.length (a_scores a)) 0) || Nat.eqb (List.length (a_labels a)) 1)
  && (Nat.eqb (List.length (a_scores a)) 0 ||
      Nat.eqb (List.length (a_labels a)) (List.length (a_scores a))).
(* models: object_detection/annotation.py:233-238 Detection.__post_init__ *)
Definition det_ok (d : detection) : bool :=
  forallb ann_ok (t_gts d) && forallb ann_ok (t_pds d) &&
  forallb (fun p => Nat.eqb (List.length (a_scores p)) (List.length (a_labels p))) (t_pds d).

(* ------------------------------------------------------------------ *)
(** * Loader *)

Section Loader.
  Variable eps : Z.   (* EPSILON *)

  (* models: object_detection/loader.py:16-39 internal state *)
  Record dloader : Type := MkDL {
    l_labels : list string;
    l_datums : nat;
    l_gts : nat;
    l_pds : nat;
    l_writes : list (list drow)
  }.
  Definition dloader_init : dloader := MkDL [] 0 0 0 [].

  (* registry and rows produced so far *)
  Notation acc := (list string * list drow)%type.

  Section Datum.
    Variable det : detection.
    Variables (datum gt_base pd_base : nat).
    Notation ngt := (List.length (t_gts det)).
    Notation npd := (List.length (t_pds det)).

    (* (ious[:, gidx] < EPSILON).all() and (ious[pidx, :] < EPSILON).all() *)
    Definition gt_alone (g : nat) : bool := forallb (fun p => (t_iou det p g <? eps)%Z) (seq 0 npd).
    Definition pd_alone (p : nat) : bool := forallb (fun g => (t_iou det p g <? eps)%Z) (seq 0 ngt).

    (* models: object_detection/loader.py:69-90, the row of an unmatched ground truth *)
    Definition row_gt (g : nat) (ga : annotation) (gl : string) (gi : nat) : drow :=
      MkD (t_uid det) (Z.of_nat datum)
          (Some (a_uid ga)) (Z.of_nat (gt_base + g)) (Some gl) (Z.of_nat gi)
          None (-1) None (-1) (-1) 0 0.
    (* models: object_detection/loader.py:97-121 and 159-183, row of an unmatched prediction *)
    Definition row_pd (p : nat) (pa : annotation) (pl : string) (pi : nat) (s : Z) : drow :=
      MkD (t_uid det) (Z.of_nat datum)
          None (-1) None (-1)
          (Some (a_uid pa)) (Z.of_nat (pd_base + p)) (Some pl) (Z.of_nat pi) s 0 0.
    (* models: object_detection/loader.py:125-150, row of a pair *)
    Definition row_pair (g : nat) (ga : annotation) (gl : string) (gi : nat)
        (p : nat) (pa : annotation) (pl : string) (pi : nat) (s : Z) : drow :=
      MkD (t_uid det) (Z.of_nat datum)
          (Some (a_uid ga)) (Z.of_nat (gt_base + g)) (Some gl) (Z.of_nat gi)
          (Some (a_uid pa)) (Z.of_nat (pd_base + p)) (Some pl) (Z.of_nat pi) s (t_iou det p g) 0.

    (* for plabel, pscore in zip(pann.labels, pann.scores) *)
    Definition emit_pd (p : nat) (pa : annotation) (a : acc) : acc :=
      fold_left (fun (a : acc) (ls : string * Z) =>
        let '(labels, rows) := a in
        let '(labels1, pi) := add_label labels (fst ls) in
        (labels1, rows ++ [row_pd p pa (fst ls) pi (snd ls)]))
        (combine (a_labels pa) (a_scores pa)) a.

    (* for glabel in gann.labels for plabel, pscore in zip(...): the dictionary
       display evaluates gt_label_id before pd_label_id *)
    Definition emit_pair (g : nat) (ga : annotation) (p : nat) (pa : annotation) (a : acc) : acc :=
      fold_left (fun (a : acc) (gl : string) =>
        fold_left (fun (a : acc) (ls : string * Z) =>
          let '(labels, rows) := a in
          let '(labels1, gi) := add_label labels gl in
          let '(labels2, pi) := add_label labels1 (fst ls) in
          (labels2, rows ++ [row_pair g ga gl gi p pa (fst ls) pi (snd ls)]))
          (combine (a_labels pa) (a_scores pa)) a)
        (a_labels ga) a.

    Definition enum {A} (l : list A) : list (nat * A) := combine (seq 0 (List.length l)) l.

    (* models: object_detection/loader.py:91-150, the loop over predictions for one
       ground truth *)
    Definition emit_gt_pds (g : nat) (ga : annotation) (a : acc) : acc :=
      fold_left (fun (a : acc) (ip : nat * annotation) =>
        let a1 := if pd_alone (fst ip) then emit_pd (fst ip) (snd ip) a else a in
        if (eps <=? t_iou det (fst ip) g)%Z then emit_pair g ga (fst ip) (snd ip) a1 else a1)
        (enum (t_pds det)) a.

    (* models: object_detection/loader.py:63-150; [None] = IndexError on labels[0] *)
    Definition emit_gt (a : option acc) (ig : nat * annotation) : option acc :=
      match a, a_labels (snd ig) with
      | Some (labels, rows), gl :: _ =>
          let '(labels1, gi) := add_label labels gl in
          let rows1 := if gt_alone (fst ig) then rows ++ [row_gt (fst ig) (snd ig) gl gi] else rows in
          Some (emit_gt_pds (fst ig) (snd ig) (labels1, rows1))
      | _, _ => None
      end.

    (* models: object_detection/loader.py:58-183, one detection *)
    Definition emit_datum (labels : list string) : option acc :=
      match t_gts det with
      | _ :: _ => fold_left emit_gt (enum (t_gts det)) (Some (labels, []))
      | [] => Some (fold_left (fun (a : acc) (ip : nat * annotation) => emit_pd (fst ip) (snd ip) a)
                      (enum (t_pds det)) (labels, []))
      end.
  End Datum.

  (* models: object_detection/loader.py:55-189, one iteration; write_rows([]) is a
     no-op (ephemeral.py:188-189, persistent.py:391-392) *)
  Definition add_detection (l : dloader) (d : detection) : option dloader :=
    match emit_datum d (l_datums l) (l_gts l) (l_pds l) (l_labels l) with
    | None => None
    | Some (labels, rows) =>
        Some (MkDL labels (S (l_datums l))
                (l_gts l + List.length (t_gts d)) (l_pds l + List.length (t_pds d))
                (l_writes l ++ match rows with [] => [] | _ :: _ => [rows] end))
    end.

  (* models: object_detection/loader.py:49-192 _add_data ([None]: an exception) *)
  Fixpoint add_detections (l : dloader) (ds : list detection) : option dloader :=
    match ds with
    | [] => Some l
    | d :: t => match add_detection l d with
                | Some l' => add_detections l' t
                | None => None
                end
    end.
End Loader.

(* ------------------------------------------------------------------ *)
(** * Ranking *)

Definition det_sorting : sorting drow := [(d_score, true); (d_iou, true)].

(* np.unique(..., axis=0, return_index=True): first occurrence of every key *)
Section Firsts.
  Context {A K : Type}.
  Variable dec : forall x y : K, {x = y} + {x <> y}.
  Variable key : A -> K.
  Definition kmem (k : K) (l : list K) : bool := if in_dec dec k l then true else false.
  Fixpoint firsts (seen : list K) (l : list A) : list A :=
    match l with
    | [] => []
    | a :: t => if kmem (key a) seen then firsts seen t else a :: firsts (key a :: seen) t
    end.
  (* the mask (over l) of the first occurrences among the elements satisfying cand *)
  Fixpoint first_flags (cand : A -> bool) (seen : list K) (l : list A) : list bool :=
    match l with
    | [] => []
    | a :: t =>
        if cand a
        then if kmem (key a) seen then false :: first_flags cand seen t
             else true :: first_flags cand (key a :: seen) t
        else false :: first_flags cand seen t
    end.
End Firsts.

Definition pd_key (r : drow) : Z * Z * Z := (d_datum r, d_pd r, d_pl r).
Definition gt_key (r : drow) : Z * Z * Z := (d_datum r, d_gt r, d_gl r).
Definition key_leb {A} (key : A -> Z * Z * Z) (a b : A) : bool := zzz_leb (key a) (key b).

(* np.isclose on two id columns *)
Definition label_match (r : drow) : bool := isclose_label (d_gl r) (d_pl r).

(* models: object_detection/computation.py:207-238 rank_pairs.  The index array is
   carried along with the rows. np.lexsort is stable with primary key -score and
   secondary key -iou. *)
Definition rank_pairs (sorted_rows : list drow) : list drow :=
  let pairs := filter (fun r => (0 <=? d_pd r)%Z) sorted_rows in
  let matched := map d_pd (filter label_match pairs) in
  let keep := filter (fun r => label_match r || negb (existsb (Z.eqb (d_pd r)) matched)) pairs in
  let unique := isort (key_leb pd_key) (firsts zzz_dec pd_key [] keep) in
  table_sort_by det_sorting unique.

Section Ranking.
  Variable unit : Z.   (* the integer that stands for 1.0 *)

  (* models: object_detection/computation.py:279-289 for the rows of one ground
     truth ([ious] = ious[mask_gt], at least two of them).  [rm] is the running
     maximum before the row, [last] the IoU of the last row selected by mask_rmax.
     The conjunct isclose(running_max, ious) is implied by the strict increase. *)
  Fixpoint later_boundaries (rm last : Z) (ious : list Z) : list Z :=
    match ious with
    | [] => []
    | x :: t =>
        let rm' := Z.max rm x in
        if (rm <? rm')%Z then last :: later_boundaries rm' x t
        else (2 * unit)%Z :: later_boundaries rm' last t
    end.
  Definition gt_boundaries (ious : list Z) : list Z :=
    match ious with
    | [] => []
    | [_] => [0%Z]                       (* mask_gt.sum() <= 1 *)
    | x :: t => 0%Z :: later_boundaries x x t
    end.

  (* out[mask] = vals *)
  Fixpoint scatter {V} (mask : list bool) (vals out : list V) : list V :=
    match mask, out with
    | b :: mask', o :: out' =>
        match b, vals with
        | true, v :: vals' => v :: scatter mask' vals' out'
        | _, _ => o :: scatter mask' vals out'
        end
    | _, _ => out
    end.

  (* models: object_detection/computation.py:272-276: mask_gt *)
  Definition gt_mask (k : Z * Z * Z) (r : drow) : bool :=
    (if zzz_dec (gt_key r) k then true else false) && (d_gl r =? d_pl r)%Z.

  (* models: object_detection/computation.py:241-293 calculate_ranking_boundaries *)
  Definition ranking_boundaries (ranked : list drow) : list Z :=
    let gts := isort zzz_leb (dkeys zzz_dec gt_key (fun r => (0 <=? d_gt r)%Z) ranked) in
    fold_left (fun out k =>
      scatter (map (gt_mask k) ranked) (gt_boundaries (map d_iou (filter (gt_mask k) ranked))) out)
      gts (map (fun _ => (2 * unit)%Z) ranked).

  Definition set_prev (r : drow) (b : Z) : drow :=
    MkD (d_uid r) (d_datum r) (d_gt_uid r) (d_gt r) (d_gt_label r) (d_gl r)
        (d_pd_uid r) (d_pd r) (d_pd_label r) (d_pl r) (d_score r) (d_iou r) b.

  (* models: object_detection/computation.py:296-329 rank_table *)
  Definition rank_table (t : list drow) : list drow :=
    let ranked := rank_pairs (table_sort_by det_sorting t) in
    map2 set_prev ranked (ranking_boundaries ranked).
End Ranking.

(* models: object_detection/evaluator.py:147-166 _rank: operations on the ranked
   writer *)
Definition rank_ops (unit : Z) (sink : kind) (bs rpf : nat) (rebatch : list drow -> list (list drow))
    (detailed : list (list drow)) : option (list (wop drow)) :=
  sort_ops sink bs rpf det_sorting (rank_table unit) rebatch detailed.

(* ------------------------------------------------------------------ *)
(** * Counts *)

Record dcounts : Type := MkDC { dc_tp : nat; dc_fp : nat }.

Section DetCounts.
  Variable eps : Z.

  (* models: object_detection/computation.py:404-410 *)
  Definition gt_and_match (r : drow) : bool := (0 <=? d_gt r)%Z && label_match r.
  (* models: object_detection/computation.py:413-415 *)
  Definition iou_mask (t : Z) (r : drow) : bool := (t <=? d_iou r)%Z && (d_prev r <? t)%Z.
  (* models: object_detection/computation.py:417-420 *)
  Definition tp_outer (t : Z) (r : drow) : bool := (eps <? d_score r)%Z && gt_and_match r && iou_mask t r.
  Definition fp_outer (t : Z) (r : drow) : bool :=
    (eps <? d_score r)%Z && ((negb (gt_and_match r) && iou_mask t r) || negb (iou_mask t r)).
  (* models: object_detection/computation.py:425-426 *)
  Definition tp_inner (t s : Z) (r : drow) : bool := tp_outer t r && (s <=? d_score r)%Z.
  Definition fp_inner (t s : Z) (r : drow) : bool := fp_outer t r && (s <=? d_score r)%Z.

  (* models: object_detection/computation.py:428-437: true_positives_mask *)
  Definition tp_mask (t s : Z) (rows : list drow) : list bool :=
    first_flags zzz_dec gt_key (tp_inner t s) [] rows.

  (* models: object_detection/computation.py:439-452 at one threshold pair and label *)
  Definition det_counts_at (t s : Z) (rows : list drow) (l : Z) : dcounts :=
    let marked := combine rows (tp_mask t s rows) in
    MkDC (countb (fun rb => snd rb && (d_pl (fst rb) =? l)%Z) marked)
         (countb (fun rb => (fp_inner t s (fst rb) || (tp_inner t s (fst rb) && negb (snd rb)))
                            && (d_pl (fst rb) =? l)%Z) marked).

  (* running counts: label -> (total, true positives) at one IoU threshold *)
  Definition runs : Type := Z -> nat * nat.
  Definition upd_run (run : runs) (l : Z) (v : nat * nat) : runs :=
    fun l' => if (l' =? l)%Z then v else run l'.

  (* models: object_detection/computation.py:454-476.  The code assigns
     arange(run+1, run+count+1) to the rows of a label in row order, i.e. the row's
     ordinal; here the rows are traversed once with the counters of all labels
     (DetArrayModel.v has the arrays; C131 shows that both agree). *)
  Fixpoint running (t : Z) (run : runs) (rows : list drow) : list (drow * nat * nat) * runs :=
    match rows with
    | [] => ([], run)
    | r :: rest =>
        let '(total, tp) := run (d_pl r) in
        let hit := tp_outer t r in
        let run' := upd_run run (d_pl r) (S total, if hit then S tp else tp) in
        let '(pts, run2) := running t run' rest in
        ((r, S total, if hit then S tp else 0) :: pts, run2)
    end.

  (* models: object_detection/computation.py:478-492: precision, recall, bin.
     recall_index = floor(recall * 100.0), here with exact rationals *)
  Definition pt_precision (p : drow * nat * nat) : Q := (qnat (snd p) / qnat (snd (fst p)))%Q.
  Definition pt_bin (n_gts : Z -> nat) (p : drow * nat * nat) : nat :=
    100 * snd p / n_gts (d_pl (fst (fst p))).
  Definition pt_in (n_gts : Z -> nat) (l : Z) (b : nat) (p : drow * nat * nat) : bool :=
    (d_pl (fst (fst p)) =? l)%Z && Nat.eqb (pt_bin n_gts p) b.

  (* precision and score per (label, bin) at one IoU threshold *)
  Definition curve : Type := Z -> nat -> Q * Z.
  Definition curve0 : curve := fun _ _ => (0%Q, 0%Z).

  (* models: object_detection/computation.py:494-528.  The score of a bin is that
     of its first row (the rows are ordered by descending score), its precision
     the largest one. *)
  Definition upd_curve (n_gts : Z -> nat) (pts : list (drow * nat * nat)) (c : curve) : curve :=
    fun l b =>
      let mine := filter (pt_in n_gts l b) pts in
      (fold_left (fun m p => Qmax m (pt_precision p)) mine (fst (c l b)),
       match mine with
       | [] => snd (c l b)
       | p :: _ => Z.max (snd (c l b)) (d_score (fst (fst p)))
       end).

  Definition dc_add (a b : dcounts) : dcounts := MkDC (dc_tp a + dc_tp b) (dc_fp a + dc_fp b).

  (* models: object_detection/evaluator.py:451-490 for one threshold pair and label:
     the accumulated counts; the datum filter is applied per table; empty tables
     are skipped, which changes nothing *)
  Definition eval_counts (t s : Z) (datums : drow -> bool) (tables : list (list drow)) (l : Z) : dcounts :=
    fold_left (fun acc tb => dc_add acc (det_counts_at t s (filter datums tb) l)) tables (MkDC 0 0).

  (* the curve and the running counts, carried from table to table *)
  Definition eval_step (t : Z) (n_gts : Z -> nat) (st : curve * runs) (rows : list drow) : curve * runs :=
    let '(pts, run) := running t (snd st) rows in (upd_curve n_gts pts (fst st), run).
  Definition eval_curve (t : Z) (n_gts : Z -> nat) (datums : drow -> bool) (tables : list (list drow)) : curve :=
    fst (fold_left (fun st tb => eval_step t n_gts st (filter datums tb)) tables (curve0, fun _ => (0, 0))).
End DetCounts.

(* models: object_detection/shared.py:188-206 extract_groundtruth_count_per_label *)
Definition det_gt_count (datums : drow -> bool) (tables : list (list drow)) (l : Z) : nat :=
  list_sum_nat (map (fun tb =>
    countb (fun k => (snd k =? l)%Z)
      (dkeys zz_dec (fun r => (d_gt r, d_gl r)) (fun r => (0 <=? d_gt r)%Z) (filter datums tb))) tables).

(* models: object_detection/evaluator.py:493: uint64 subtraction *)
Definition det_fn (n tp : nat) : Z := ((Z.of_nat n - Z.of_nat tp) mod 2 ^ 64)%Z.

(* models: object_detection/computation.py:534-567 compute_precision_recall_f1 *)
Definition det_precision (c : dcounts) : Q := qdiv_or_0 (dc_tp c) (dc_tp c + dc_fp c).
Definition det_recall (n : nat) (c : dcounts) : Q := qdiv_or_0 (dc_tp c) n.
Definition det_f1 (n : nat) (c : dcounts) : Q := f1 (det_precision c) (det_recall n c).

Definition qsum (l : list Q) : Q := fold_right Qplus 0%Q l.
(* np.mean; an empty mean is nan, here [None] *)
Definition qmean (l : list Q) : option Q :=
  match l with [] => None | _ => Some (qsum l / qnat (List.length l))%Q end.

(* models: object_detection/computation.py:587-608: descending loop over the bins
   with the running maximum *)
Fixpoint ap_loop (c : nat -> Q) (bins : list nat) (rmax sum : Q) : Q :=
  match bins with
  | [] => sum
  | b :: t => let m := Qmax (c b) rmax in ap_loop c t m (sum + m)%Q
  end.
Definition average_precision (c : nat -> Q) : Q :=
  (ap_loop c (rev (seq 0 101)) 0 0 / 101)%Q.
(* models: object_detection/computation.py:610-611 *)
Definition mean_ap (aps : list Q) : option Q := qmean aps.
(* models: object_detection/computation.py:570-574 compute_average_recall for one
   label and score threshold, over the IoU thresholds *)
Definition average_recall (recalls : list Q) : option Q := qmean recalls.

(* ------------------------------------------------------------------ *)
(** * Packed membership, greedy matching, pair classification *)

(* conversion to int32 and back *)
Definition to_int32 (z : Z) : Z := ((z + 2 ^ 31) mod 2 ^ 32 - 2 ^ 31)%Z.
Definition to_int64 (z : Z) : Z := ((z + 2 ^ 63) mod 2 ^ 64 - 2 ^ 63)%Z.
(* models: object_detection/computation.py:633-638: (a << 32) | int32(b) in int64 *)
Definition pack (p : Z * Z) : Z := Z.lor (to_int64 (Z.shiftl (fst p) 32)) (to_int32 (snd p)).
(* models: object_detection/computation.py:615-641 _isin *)
Definition isin (subset : list (Z * Z)) (p : Z * Z) : bool := existsb (Z.eqb (pack p)) (map pack subset).

Definition pair_ids (r : drow) : Z * Z := (d_gt r, d_pd r).

(* models: object_detection/computation.py:652-674: keep flags; [ug]/[up] are the
   used ids *)
Fixpoint greedy (ug up : list Z) (l : list (Z * Z)) : list (Z * Z) :=
  match l with
  | [] => []
  | (g, p) :: t =>
      if (g <? 0)%Z || (p <? 0)%Z || zmem g ug || zmem p up
      then greedy ug up t
      else (g, p) :: greedy (g :: ug) (p :: up) t
  end.
(* models: object_detection/computation.py:652-681 mask_pairs_greedily *)
Definition matched_mask (rows : list drow) : drow -> bool :=
  fun r => isin (greedy [] [] (map pair_ids rows)) (pair_ids r).

Section PairClass.
  Variable eps : Z.
  Variables (t s : Z).           (* IoU and score threshold *)
  Variable rows : list drow.

  Definition gt_exists (r : drow) : bool := (0 <=? d_gt r)%Z.
  Definition pd_exists (r : drow) : bool := (0 <=? d_pd r)%Z.
  (* models: object_detection/computation.py:747-763 *)
  Definition m_iou (r : drow) : bool := (eps <? d_iou r)%Z && (t <=? d_iou r)%Z.
  Definition m_sc (r : drow) : bool := (eps <? d_score r)%Z && (s <=? d_score r)%Z.
  Definition thresholded (r : drow) : bool := matched_mask rows r && m_iou r && m_sc r.
  (* models: object_detection/computation.py:765-800 *)
  Definition dp_tp (r : drow) : bool := thresholded r && (gt_exists r && pd_exists r && label_match r).
  Definition dp_misclf (r : drow) : bool := thresholded r && negb (gt_exists r && pd_exists r && label_match r).
  Definition dp_unmatched_pd (r : drow) : bool :=
    negb (isin (map (fun x => (d_datum x, d_pd x)) (filter thresholded rows)) (d_datum r, d_pd r))
    && pd_exists r && m_sc r.
  Definition dp_unmatched_gt (r : drow) : bool :=
    negb (isin (map (fun x => (d_datum x, d_gt x)) (filter thresholded rows)) (d_datum r, d_gt r))
    && gt_exists r.

  Definition row_ids (r : drow) : Z * Z * Z * Z * Z := (d_datum r, d_gt r, d_pd r, d_gl r, d_pl r).
  Definition z5_dec : forall x y : Z * Z * Z * Z * Z, {x = y} + {x <> y}.
  Proof. repeat decide equality. Defined.

  Record dconf : Type := MkDConf {
    dm : Z -> Z -> nat;           (* ground-truth label, predicted label *)
    dm_gt : Z -> nat;             (* unmatched ground truths *)
    dm_pd : Z -> nat              (* unmatched predictions *)
  }.

  (* models: object_detection/computation.py:825-887 compute_confusion_matrix *)
  Definition det_confusion : dconf :=
    let matched := dkeys z5_dec row_ids (fun r => dp_tp r || dp_misclf r) rows in
    MkDConf
      (fun g p => countb (fun k => (snd (fst k) =? g)%Z && (snd k =? p)%Z) matched)
      (fun g => countb (fun k => (snd k =? g)%Z) (dkeys zzz_dec gt_key dp_unmatched_gt rows))
      (fun p => countb (fun k => (snd k =? p)%Z) (dkeys zzz_dec pd_key dp_unmatched_pd rows)).
End PairClass.

Definition dconf_add (a b : dconf) : dconf :=
  MkDConf (fun g p => dm a g p + dm b g p) (fun g => dm_gt a g + dm_gt b g) (fun p => dm_pd a p + dm_pd b p).
Definition dconf_zero : dconf := MkDConf (fun _ _ => 0) (fun _ => 0) (fun _ => 0).

(* models: object_detection/evaluator.py:546-593: accumulation over the tables *)
Definition eval_confusion (eps t s : Z) (datums : drow -> bool) (tables : list (list drow)) : dconf :=
  fold_left (fun acc tb => dconf_add acc (det_confusion eps t s (filter datums tb))) tables dconf_zero.

(* ------------------------------------------------------------------ *)
(** * Filter and info *)

Definition same_gtk (a b : drow) : bool := if zzz_dec (gt_key a) (gt_key b) then true else false.
Definition same_pdk (a b : drow) : bool := if zzz_dec (pd_key a) (pd_key b) then true else false.

(* models: object_detection/evaluator.py:355-407: one table *)
Definition det_filter_row (vg vp : bool) (r : drow) : drow :=
  MkD (d_uid r) (d_datum r)
      (d_gt_uid r) (if vg then d_gt r else -1)%Z (d_gt_label r) (if vg then d_gl r else -1)%Z
      (d_pd_uid r) (if vp then d_pd r else -1)%Z (d_pd_label r) (if vp then d_pl r else -1)%Z
      (if vp then d_score r else -1)%Z (if vg && vp then d_iou r else 0)%Z (d_prev r).
Definition det_filter_table (gts pds : option (drow -> bool)) (tb : list drow) : list drow :=
  let valid_gt r := match gts with None => true | Some f => existsb (same_gtk r) (filter f tb) end in
  let valid_pd r := match pds with None => true | Some f => existsb (same_pdk r) (filter f tb) end in
  filter (fun r => negb ((d_gt r <? 0)%Z && (d_pd r <? 0)%Z))
    (map (fun r => det_filter_row (valid_gt r) (valid_pd r) r)
       (filter (fun r => valid_gt r || valid_pd r) tb)).
(* models: object_detection/evaluator.py:341-408 *)
Definition det_filter_tables (datums : drow -> bool) (gts pds : option (drow -> bool))
    (tables : list (list drow)) : list (list drow) :=
  map (fun tb => det_filter_table gts pds (filter datums tb)) tables.

(* models: object_detection/shared.py:160-185 extract_counts *)
Definition det_info (datums : drow -> bool) (gts pds : drow -> bool) (tables : list (list drow))
    : nat * nat * nat :=
  (list_sum_nat (map (fun tb => dcount Z.eq_dec d_datum (fun _ => true) (filter datums tb)) tables),
   list_sum_nat (map (fun tb => dcount Z.eq_dec d_gt (fun r => gts r && (0 <=? d_gt r)%Z) (filter datums tb)) tables),
   list_sum_nat (map (fun tb => dcount Z.eq_dec d_pd (fun r => pds r && (0 <=? d_pd r)%Z) (filter datums tb)) tables)).
