(* Specification vocabulary for segmentation: pixels and their labels. Only the record
   types of SegModel.v, [meta_get], [eval_expr] and [first_appearance] are used, and in
   [obtained] the calls by which a user gets an evaluator. *)
From Verif Require Import Prelude Counting CacheModel CacheSpec ClsModel ClsSpec FlowModel DetFlowModel SegModel.
From Coq Require Import QArith String.
Local Open Scope nat_scope.
Local Open Scope list_scope.

(* ------------------------------------------------------------------ *)
(** * Pixels *)

(* SPEC: pixel [p] belongs to the mask *)
Definition px (b : bitmask) (p : nat) : bool := nth p (bm_bits b) false.
(* SPEC: a numpy array has as many elements as its shape says *)
Definition array_ok (b : bitmask) : Prop :=
  Forall (fun d => (0 <= d)%Z) (bm_shape b) /\
  Z.of_nat (List.length (bm_bits b)) = fold_right Z.mul 1%Z (bm_shape b).
(* SPEC: no pixel belongs to two masks *)
Definition disjoint_masks (bs : list bitmask) : Prop :=
  forall i j b b' p, nth_error bs i = Some b -> nth_error bs j = Some b' -> i <> j ->
    px b p = true -> px b' p = true -> False.
(* SPEC: at most one mask per label *)
Definition distinct_labels (bs : list bitmask) : Prop := NoDup (map bm_label bs).

(* reading the masks of a list out of the arrays *)
Definition hread1 (h : list harray) (b : hmask) : option bitmask :=
  option_map (fun a => MkBM (hm_label b) (ar_shape a) (ar_bits a) (hm_meta b)) (nth_error h (hm_ref b)).
Definition hread (h : list harray) (bs : list hmask) (out : list bitmask) : Prop :=
  Forall2 (fun b o => hread1 h b = Some o) bs out.

(* the masks of a datum all cover the image *)
Definition sized (s : segmentation) : Prop :=
  (0 < sg_size s)%Z /\
  (forall b, In b (sg_gts s) \/ In b (sg_pds s) -> Z.of_nat (List.length (bm_bits b)) = sg_size s).
(* SPEC: every pixel has at most one ground-truth and one predicted label *)
Definition clean (s : segmentation) : Prop :=
  sized s /\ disjoint_masks (sg_gts s) /\ disjoint_masks (sg_pds s) /\
  distinct_labels (sg_gts s) /\ distinct_labels (sg_pds s).

Definition pixels (s : segmentation) : list nat := seq 0 (Z.to_nat (sg_size s)).
(* SPEC: the label of a pixel: that of the mask it belongs to *)
Definition label_at (bs : list bitmask) (p : nat) : option string :=
  option_map bm_label (find (fun b => px b p) bs).
Definition gt_at (s : segmentation) (p : nat) : option string := label_at (sg_gts s) p.
Definition pd_at (s : segmentation) (p : nat) : option string := label_at (sg_pds s) p.
Definition is_label (o : option string) (l : string) : bool :=
  match o with Some x => String.eqb x l | None => false end.
Definition same (a b : option string) : bool :=
  match a, b with
  | Some x, Some y => String.eqb x y
  | None, None => true
  | _, _ => false
  end.

(* SPEC: number of pixels of the data set satisfying [P] *)
Definition npix (ss : list segmentation) (P : segmentation -> nat -> bool) : nat :=
  list_sum_nat (map (fun s => countb (P s) (pixels s)) ss).
Definition total_pixels (ss : list segmentation) : Z := zsum (map sg_size ss).
(* the counters are 64 bit *)
Definition countable (ss : list segmentation) : Prop := (total_pixels ss < 2 ^ 64)%Z.

(* all labels of the data, in order of first appearance: ground truths before
   predictions of the same datum *)
Definition seg_datum_labels (s : segmentation) : list string :=
  map bm_label (sg_gts s) ++ map bm_label (sg_pds s).
Definition seg_labels (ss : list segmentation) : list string :=
  first_appearance [] (List.concat (map seg_datum_labels ss)).

(* what index [i] of a confusion matrix stands for: 0 is "no label" *)
Definition index_label (L : list string) (i : nat) : option (option string) :=
  match i with O => Some None | S k => option_map Some (nth_error L k) end.

(* ------------------------------------------------------------------ *)
(** * A way of looking at a data set *)

(* the kept datums, ground-truth labels and predicted labels; everything else is
   background *)
Record view : Type := MkView {
  v_datum : segmentation -> bool;
  v_gt : segmentation -> string -> bool;
  v_pd : segmentation -> string -> bool
}.
Definition all_view : view := MkView (fun _ => true) (fun _ _ => true) (fun _ _ => true).
Definition and_view (a b : view) : view :=
  MkView (fun s => v_datum a s && v_datum b s)
         (fun s l => v_gt a s l && v_gt b s l) (fun s l => v_pd a s l && v_pd b s l).
Definition kept (f : string -> bool) (o : option string) : option string :=
  match o with Some l => if f l then Some l else None | None => None end.
Definition vgt (v : view) (s : segmentation) (p : nat) : option string := kept (v_gt v s) (gt_at s p).
Definition vpd (v : view) (s : segmentation) (p : nat) : option string := kept (v_pd v s) (pd_at s p).
(* SPEC: number of pixels of the kept datums satisfying [P] on the pair of labels *)
Definition vcount (ss : list segmentation) (v : view) (P : option string -> option string -> bool) : nat :=
  npix (filter (v_datum v) ss) (fun s p => P (vgt v s p) (vpd v s p)).

(* ------------------------------------------------------------------ *)
(** * Filter expressions *)

Definition uses_field (bs : list bitmask) (f : string) : Prop :=
  exists b, In b bs /\ In f (map fst (bm_meta b)).
Definition gts_use (ss : list segmentation) (f : string) : Prop := exists s, In s ss /\ uses_field (sg_gts s) f.
Definition pds_use (ss : list segmentation) (f : string) : Prop := exists s, In s ss /\ uses_field (sg_pds s) f.
(* the value of field [f] for the annotation with label [l], else the datum's *)
Definition own_meta (bs : list bitmask) (dm : meta) (l : string) (f : string) : option string :=
  match find (fun b => String.eqb (bm_label b) l) bs with
  | Some b => match meta_get (bm_meta b) f with Some v => Some v | None => meta_get dm f end
  | None => meta_get dm f
  end.
(* [e] is an expression on datums: it looks at the datum's number, uid and at metadata
   fields which annotations do not use; it selects the datums with [sel] *)
Definition datum_expr (ss : list segmentation) (e : expr) (sel : segmentation -> bool) : Prop :=
  forall r k s, nth_error ss k = Some s -> s_datum r = Z.of_nat k -> s_uid r = sg_uid s ->
    (forall f, ~ gts_use ss f -> ~ pds_use ss f -> meta_get (s_meta r) f = meta_get (sg_meta s) f) ->
    eval_expr e r = sel s.
(* [e] is an expression on ground truths: it looks at the datum, at gt_label and at
   metadata fields which predictions do not use *)
Definition gt_expr (ss : list segmentation) (e : expr) (sel : segmentation -> string -> bool) : Prop :=
  forall r k s l, nth_error ss k = Some s -> s_datum r = Z.of_nat k -> s_uid r = sg_uid s ->
    s_gt_label r = Some l ->
    (forall f, ~ pds_use ss f -> meta_get (s_meta r) f = own_meta (sg_gts s) (sg_meta s) l f) ->
    eval_expr e r = sel s l.
Definition pd_expr (ss : list segmentation) (e : expr) (sel : segmentation -> string -> bool) : Prop :=
  forall r k s l, nth_error ss k = Some s -> s_datum r = Z.of_nat k -> s_uid r = sg_uid s ->
    s_pd_label r = Some l ->
    (forall f, ~ gts_use ss f -> meta_get (s_meta r) f = own_meta (sg_pds s) (sg_meta s) l f) ->
    eval_expr e r = sel s l.

(* ------------------------------------------------------------------ *)
(** * Set-theoretic metrics *)

(* SPEC: a quotient of counts; 0 when the denominator is 0 *)
Definition fraction (a b : nat) : Q :=
  match b with O => 0%Q | S _ => (inject_Z (Z.of_nat a) / inject_Z (Z.of_nat b))%Q end.

Section Metrics.
  Variables (ss : list segmentation) (v : view).
  Definition spec_precision (l : string) : Q :=
    fraction (vcount ss v (fun g p => is_label g l && is_label p l)) (vcount ss v (fun _ p => is_label p l)).
  Definition spec_recall (l : string) : Q :=
    fraction (vcount ss v (fun g p => is_label g l && is_label p l)) (vcount ss v (fun g _ => is_label g l)).
  (* Dice: twice the common pixels over the pixels of both *)
  Definition spec_f1 (l : string) : Q :=
    fraction (2 * vcount ss v (fun g p => is_label g l && is_label p l))
             (vcount ss v (fun g _ => is_label g l) + vcount ss v (fun _ p => is_label p l)).
  Definition spec_iou (a b : string) : Q :=
    fraction (vcount ss v (fun g p => is_label g a && is_label p b))
             (vcount ss v (fun g p => is_label g a || is_label p b)).
  Definition spec_accuracy : Q :=
    fraction (vcount ss v same) (vcount ss v (fun _ _ => true)).
  Definition spec_unmatched_pd (l : string) : Q :=
    fraction (vcount ss v (fun g p => same g None && is_label p l)) (vcount ss v (fun _ p => is_label p l)).
  Definition spec_unmatched_gt (l : string) : Q :=
    fraction (vcount ss v (fun g p => is_label g l && same p None)) (vcount ss v (fun g _ => is_label g l)).
End Metrics.

Definition qmean (l : list Q) : Q := (fold_right Qplus 0%Q l / inject_Z (Z.of_nat (List.length l)))%Q.

(* SPEC: a report lists one value per label, in order *)
Definition lists_of (L : list string) (f : string -> Q) (out : list (option string * Q)) : Prop :=
  Forall2 (fun l x => fst x = Some l /\ (snd x == f l)%Q) L out.
Definition report_ok (ss : list segmentation) (v : view) (L : list string) (rep : sreport) : Prop :=
  (sr_accuracy rep == spec_accuracy ss v)%Q /\
  Forall2 (fun a x => fst x = Some a /\ lists_of L (spec_iou ss v a) (snd x)) L (sr_confusion rep) /\
  lists_of L (spec_unmatched_pd ss v) (sr_unmatched_pd rep) /\
  lists_of L (spec_unmatched_gt ss v) (sr_unmatched_gt rep) /\
  match sr_miou rep with
  | Some m => L <> [] /\ (m == qmean (map (fun l => spec_iou ss v l l) L))%Q
  | None => L = []
  end /\
  lists_of L (spec_precision ss v) (sr_precision rep) /\
  lists_of L (spec_recall ss v) (sr_recall rep) /\
  lists_of L (spec_f1 ss v) (sr_f1 rep) /\
  lists_of L (fun l => spec_iou ss v l l) (sr_iou rep).

(* the label map of an evaluator: ids count up in order of first appearance *)
Definition label_map (L : list string) (d : ldict) : Prop :=
  d = combine (map Z.of_nat (seq 0 (List.length L))) (map Some L).

(* ------------------------------------------------------------------ *)
(** * Ways to get an evaluator *)

Definition sadded (h : list scall) : list segmentation :=
  List.concat (map (fun c => match c with SAdd ss => ss | SFinal _ => [] end) h).

(* [e] was obtained from the data [ss] and shows the view [v]: by finalizing a builder
   (memory or files) after any calls, by loading the files, or by filtering *)
Inductive obtained : list segmentation -> view -> seval -> Prop :=
| ob_memory bs h e :
    snd (smb_finalize None (smb_run bs h)) = Done e -> obtained (sadded h) all_view e
| ob_files bs rpf h e :
    snd (sfb_finalize None (sfb_run bs rpf h)) = Done e -> obtained (sadded h) all_view e
| ob_load bs rpf h d e :
    snd (sfb_finalize None (sfb_run bs rpf h)) = Done e ->
    Permutation d (f_dir (sfb_writer (fst (sfb_finalize None (sfb_run bs rpf h))))) ->
    obtained (sadded h) all_view (seg_load d None)
| ob_filter_memory ss v e bs ed eg ep w e' :
    obtained ss v e ->
    datum_expr ss ed (v_datum w) -> gt_expr ss eg (v_gt w) -> pd_expr ss ep (v_pd w) ->
    seg_filter_mem bs e ed eg ep = Done e' -> obtained ss (and_view v w) e'
| ob_filter_files ss v e bs rpf ed eg ep w e' :
    obtained ss v e ->
    datum_expr ss ed (v_datum w) -> gt_expr ss eg (v_gt w) -> pd_expr ss ep (v_pd w) ->
    seg_filter_file bs rpf e ed eg ep = Done e' -> obtained ss (and_view v w) e'.

(* ------------------------------------------------------------------ *)
(** * Info *)

(* SPEC: what get_info must report about view [v] for selectors [w] *)
Definition on_label (f : string -> bool) (o : option string) : bool :=
  match o with Some l => f l | None => false end.
Definition info_ok (ss : list segmentation) (v w : view) (i : sinfo) : Prop :=
  let seen := filter (fun s => v_datum v s && v_datum w s) ss in
  si_labels i = List.length (seg_labels ss) /\
  si_datums i = List.length seen /\
  si_pixels i = total_pixels seen /\
  si_gt_pixels i = Z.of_nat (npix seen (fun s p => on_label (v_gt w s) (vgt v s p))) /\
  si_pd_pixels i = Z.of_nat (npix seen (fun s p => on_label (v_pd w s) (vpd v s p))).

(* all values of a report *)
Definition report_values (rep : sreport) : list Q :=
  sr_accuracy rep :: flat_map (fun x => map snd (snd x)) (sr_confusion rep)
  ++ map snd (sr_unmatched_pd rep) ++ map snd (sr_unmatched_gt rep)
  ++ (match sr_miou rep with Some m => [m] | None => [] end)
  ++ map snd (sr_precision rep) ++ map snd (sr_recall rep) ++ map snd (sr_f1 rep) ++ map snd (sr_iou rep).

(* the rows an evaluator stores for datum [k], and their pixels *)
Definition datum_rows (e : seval) (k : nat) : list srow :=
  filter (fun r => (s_datum r =? Z.of_nat k)%Z) (List.concat (se_tables e)).
Definition row_pixels (l : list srow) : Z := zsum (map s_count l).

(* a mask before and after construction: everything but the pixels is the same *)
Definition same_frame (b b' : bitmask) : Prop :=
  bm_label b' = bm_label b /\ bm_shape b' = bm_shape b /\ bm_meta b' = bm_meta b /\ List.length (bm_bits b') = List.length (bm_bits b).

(* a row before and after a filter *)
Definition kept_fields (r r' : srow) : Prop :=
  s_uid r' = s_uid r /\ s_datum r' = s_datum r /\ s_gt_label r' = s_gt_label r /\ s_pd_label r' = s_pd_label r /\ s_count r' = s_count r
  /\ s_meta r' = s_meta r /\ (s_gt r' = s_gt r \/ s_gt r' = (-1)%Z) /\ (s_pd r' = s_pd r \/ s_pd r' = (-1)%Z).

(* two views that show the same of the data; a view restricted to some datums *)
Definition same_view (ss : list segmentation) (v w : view) : Prop :=
  forall s, In s ss -> v_datum v s = v_datum w s /\ (forall l, v_gt v s l = v_gt w s l /\ v_pd v s l = v_pd w s l).
Definition with_datums (v : view) (sel : segmentation -> bool) : view :=
  MkView (fun s => v_datum v s && sel s) (v_gt v) (v_pd v).

(* filter expressions: a field of the metadata, a label, the uid *)
Definition on_field (f : string) (P : option string -> bool) : expr := Some (fun r => P (meta_get (s_meta r) f)).
Definition on_gt (P : string -> bool) : expr := Some (fun r => match s_gt_label r with Some l => P l | None => false end).
Definition on_pd (P : string -> bool) : expr := Some (fun r => match s_pd_label r with Some l => P l | None => false end).
Definition on_uid (P : string -> bool) : expr := Some (fun r => P (s_uid r)).
