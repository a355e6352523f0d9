(* Specification vocabulary for object detection, independent of the algorithms in
   DetModel.v (only the record types, [index_of] and [aligned] are used). *)
From Verif Require Import Prelude Counting CacheModel CacheSpec ClsModel DetModel DetExModel.
From Coq Require Import String QArith Qminmax.
Local Open Scope nat_scope.
Local Open Scope list_scope.

(* ------------------------------------------------------------------ *)
(** * Geometry *)

(* SPEC: points of a box, its area *)
Definition inside (b : box) (x y : Q) : Prop :=
  (b_xmin b <= x <= b_xmax b /\ b_ymin b <= y <= b_ymax b)%Q.
Definition wf_box (b : box) : Prop := (b_xmin b <= b_xmax b /\ b_ymin b <= b_ymax b)%Q.
Definition area (b : box) : Q := ((b_xmax b - b_xmin b) * (b_ymax b - b_ymin b))%Q.
(* [c] is the intersection of [a] and [b] *)
Definition is_intersection (a b c : box) : Prop :=
  wf_box c /\ forall x y, inside c x y <-> inside a x y /\ inside b x y.
Definition disjoint_interiors (a b : box) : Prop :=
  forall x y, ~ ((b_xmin a < x /\ x < b_xmax a) /\ (b_ymin a < y /\ y < b_ymax a) /\
                 (b_xmin b < x /\ x < b_xmax b) /\ (b_ymin b < y /\ y < b_ymax b))%Q.
(* SPEC: pixels are positions of the flattened mask *)
Definition pixel (m : list bool) (i : nat) : bool := nth i m false.
Definition pixels_where (n : nat) (P : nat -> bool) : nat := countb P (seq 0 n).

(* ------------------------------------------------------------------ *)
(** * Identifiers and matchings *)

(* SPEC: ids of existing annotations, and ids including the absent marker -1 *)
Definition id_ok (z : Z) : Prop := (0 <= z < 2 ^ 31)%Z.
Definition id_or_absent (z : Z) : Prop := (-1 <= z < 2 ^ 31)%Z.
Definition valid_pair (x : Z * Z) : Prop := (0 <= fst x)%Z /\ (0 <= snd x)%Z.
(* two pairs that cannot both be selected *)
Definition conflict (x y : Z * Z) : Prop := fst x = fst y \/ snd x = snd y.
(* SPEC: [K] is the greedy selection from [l]: a pair is selected at its first
   occurrence iff both ids exist and no earlier selected pair uses one of them *)
Definition greedy_selection (l : list (Z * Z)) (K : Z * Z -> Prop) : Prop :=
  forall l1 x l2, l = l1 ++ x :: l2 -> ~ In x l1 ->
    (K x <-> valid_pair x /\ forall y, In y l1 -> K y -> ~ conflict x y).

(* ------------------------------------------------------------------ *)
(** * Stored rows *)

(* ids given to the annotations of datum number [i] *)
Definition gts_before (ds : list detection) (i : nat) : nat :=
  list_sum_nat (map (fun d => List.length (t_gts d)) (firstn i ds)).
Definition pds_before (ds : list detection) (i : nat) : nat :=
  list_sum_nat (map (fun d => List.length (t_pds d)) (firstn i ds)).
Definition gt_id (ds : list detection) (i g : nat) : Z := Z.of_nat (gts_before ds i + g).
Definition pd_id (ds : list detection) (i p : nat) : Z := Z.of_nat (pds_before ds i + p).

(* SPEC: the rows that should be stored for the input [ds] when label ids are
   positions in [labels]: a ground truth or prediction without any overlap, or an
   overlapping pair *)
Inductive described (eps : Z) (ds : list detection) (labels : list string) : drow -> Prop :=
| Desc_gt i d g ga gl rest gi :
    nth_error ds i = Some d -> nth_error (t_gts d) g = Some ga -> a_labels ga = gl :: rest ->
    (forall p, p < List.length (t_pds d) -> (t_iou d p g < eps)%Z) ->
    index_of gl labels = Some gi ->
    described eps ds labels
      (MkD (t_uid d) (Z.of_nat i) (Some (a_uid ga)) (gt_id ds i g) (Some gl) (Z.of_nat gi)
           None (-1) None (-1) (-1) 0 0)
| Desc_pd i d p pa k pl s pi :
    nth_error ds i = Some d -> nth_error (t_pds d) p = Some pa ->
    nth_error (a_labels pa) k = Some pl -> nth_error (a_scores pa) k = Some s ->
    (forall g, g < List.length (t_gts d) -> (t_iou d p g < eps)%Z) ->
    index_of pl labels = Some pi ->
    described eps ds labels
      (MkD (t_uid d) (Z.of_nat i) None (-1) None (-1)
           (Some (a_uid pa)) (pd_id ds i p) (Some pl) (Z.of_nat pi) s 0 0)
| Desc_pair i d g ga j gl gi p pa k pl s pi :
    nth_error ds i = Some d -> nth_error (t_gts d) g = Some ga -> nth_error (t_pds d) p = Some pa ->
    nth_error (a_labels ga) j = Some gl ->
    nth_error (a_labels pa) k = Some pl -> nth_error (a_scores pa) k = Some s ->
    (eps <= t_iou d p g)%Z ->
    index_of gl labels = Some gi -> index_of pl labels = Some pi ->
    described eps ds labels
      (MkD (t_uid d) (Z.of_nat i) (Some (a_uid ga)) (gt_id ds i g) (Some gl) (Z.of_nat gi)
           (Some (a_uid pa)) (pd_id ds i p) (Some pl) (Z.of_nat pi) s (t_iou d p g) 0).

(* all labels of an input *)
Definition det_labels (ds : list detection) : list string :=
  List.concat (map (fun d => List.concat (map a_labels (t_gts d ++ t_pds d))) ds).

(* ground truths as the documentation describes them: no scores, hence one label *)
Definition plain_gts (d : detection) : Prop := forall a, In a (t_gts d) -> a_scores a = [].
Definition distinct_pd_labels (d : detection) : Prop := forall a, In a (t_pds d) -> NoDup (a_labels a).
Definition single_pd_labels (d : detection) : Prop := forall a, In a (t_pds d) -> List.length (a_labels a) = 1.
(* IoUs are at most 1.0 and non-negative *)
Definition ious_in (unit : Z) (d : detection) : Prop := forall p g, (0 <= t_iou d p g <= unit)%Z.

(* ------------------------------------------------------------------ *)
(** * Well-formed pair tables *)

Definition labels_small (rows : list drow) : Prop :=
  forall r, In r rows -> (-1 <= d_gl r < 100000)%Z /\ (-1 <= d_pl r < 100000)%Z.
Definition ious_ok (unit : Z) (rows : list drow) : Prop :=
  forall r, In r rows -> (d_iou r <= unit)%Z.
Definition gts_in_one_datum (rows : list drow) : Prop :=
  forall a b, In a rows -> In b rows -> (0 <= d_gt a)%Z -> d_gt a = d_gt b -> d_datum a = d_datum b.
Definition pds_in_one_datum (rows : list drow) : Prop :=
  forall a b, In a rows -> In b rows -> (0 <= d_pd a)%Z -> d_pd a = d_pd b -> d_datum a = d_datum b.
(* a datum filter keeps or drops whole datums *)
Definition by_datum (datums : drow -> bool) : Prop :=
  forall a b, d_datum a = d_datum b -> datums a = datums b.

(* a row and its version without the boundary column describe the same pair *)
Definition same_pair (a b : drow) : Prop :=
  d_uid a = d_uid b /\ d_datum a = d_datum b /\ d_gt_uid a = d_gt_uid b /\ d_gt a = d_gt b /\
  d_gt_label a = d_gt_label b /\ d_gl a = d_gl b /\ d_pd_uid a = d_pd_uid b /\ d_pd a = d_pd b /\
  d_pd_label a = d_pd_label b /\ d_pl a = d_pl b /\ d_score a = d_score b /\ d_iou a = d_iou b.

(* ------------------------------------------------------------------ *)
(** * Best matches and average precision *)

(* SPEC: the row pairs ground truth [k] = (datum, id, label id) with a prediction of
   its own label *)
Definition pairs_with (k : Z * Z * Z) (r : drow) : bool :=
  let '(d, g, l) := k in
  (d_datum r =? d)%Z && (d_gt r =? g)%Z && (d_gl r =? l)%Z && (d_pl r =? l)%Z.
(* SPEC: the highest-ranked prediction paired with ground truth [k] under its own
   label with IoU at least [t] *)
Definition best_match (R : list drow) (k : Z * Z * Z) (t : Z) : option drow :=
  find (fun r => pairs_with k r && (t <=? d_iou r)%Z) R.

(* SPEC: [r] is the best match of its ground truth *)
Definition is_hit (R : list drow) (t : Z) (r : drow) : bool :=
  (0 <=? d_gt r)%Z &&
  match best_match R (d_datum r, d_gt r, d_gl r) t with
  | Some b => (d_pd b =? d_pd r)%Z && (d_pl b =? d_pl r)%Z
  | None => false
  end.

(* SPEC: the best match of [k] exists and has a sufficient score *)
Definition good_match (eps t s : Z) (R : list drow) (k : Z * Z * Z) : bool :=
  match best_match R k t with
  | Some b => (eps <? d_score b)%Z && (s <=? d_score b)%Z
  | None => false
  end.

(* SPEC: [hits]: for the predictions of one label, best score first, whether each is
   a true positive; [G]: number of ground truths *)
Definition trues (l : list bool) : nat := countb (fun b => b) l.
Definition prefix_precision (hits : list bool) (i : nat) : Q := (qnat (trues (firstn i hits)) / qnat i)%Q.
(* recall of the prefix at least k/100 *)
Definition prefix_recall_ge (G : nat) (hits : list bool) (k i : nat) : bool :=
  Nat.leb (k * G) (100 * trues (firstn i hits)).
Definition qmaxl (l : list Q) : Q := fold_right Qmax 0%Q l.
Definition interpolated (G : nat) (hits : list bool) (k : nat) : Q :=
  qmaxl (map (prefix_precision hits) (filter (prefix_recall_ge G hits k) (seq 1 (List.length hits)))).
Definition ap_spec (G : nat) (hits : list bool) : Q :=
  (qsum (map (interpolated G hits) (seq 0 101)) / 101)%Q.

(* ------------------------------------------------------------------ *)
(** * Inputs *)

(* inputs the public classes accept, with ground truths as documented *)
Definition det_input (unit : Z) (ds : list detection) : Prop :=
  Forall (fun d => det_ok d = true /\ plain_gts d /\ ious_in unit d) ds.

(* [tables] is a storage of the rows written for [ds]: all rows in any order, cut in
   any way that keeps each datum in one table; [labels] is the label registry *)
Definition det_stored (eps : Z) (ds : list detection) (labels : list string) (tables : list (list drow)) : Prop :=
  exists l, add_detections eps dloader_init ds = Some l /\ l_labels l = labels /\
    Permutation (List.concat tables) (List.concat (l_writes l)) /\ aligned d_datum tables.

(* the datum filter selects exactly the datums with [sel]; it may look at the uid and
   the number of the datum of a row *)
Definition det_selects (ds : list detection) (datums : drow -> bool) (sel : detection -> bool) : Prop :=
  forall r i d, d_datum r = Z.of_nat i -> d_uid r = t_uid d -> nth_error ds i = Some d -> datums r = sel d.
(* stronger: it decides by the number of the datum alone *)
Definition selects_ids (ds : list detection) (datums : drow -> bool) (sel : detection -> bool) : Prop :=
  forall r i d, d_datum r = Z.of_nat i -> nth_error ds i = Some d -> datums r = sel d.

Definition few (labels : list string) : Prop := (Z.of_nat (List.length labels) <= 100000)%Z.
Definition few_annotations (ds : list detection) : Prop :=
  (Z.of_nat (List.length ds) < 2 ^ 31)%Z /\
  (Z.of_nat (gts_before ds (List.length ds)) < 2 ^ 31)%Z /\
  (Z.of_nat (pds_before ds (List.length ds)) < 2 ^ 31)%Z.

(* number of ground truths / of predictions with an accepted score, by label, in the
   selected datums *)
Definition gts_with (sel : detection -> bool) (ds : list detection) (l : string) : nat :=
  list_sum_nat (map (fun d => if sel d then countb (fun a => existsb (String.eqb l) (a_labels a)) (t_gts d) else 0) ds).
Definition pds_with (sel : detection -> bool) (ok : Z -> bool) (ds : list detection) (l : string) : nat :=
  list_sum_nat (map (fun d => if sel d
    then list_sum_nat (map (fun a => countb (fun ls => String.eqb l (fst ls) && ok (snd ls)) (combine (a_labels a) (a_scores a))) (t_pds d))
    else 0) ds).

(* ------------------------------------------------------------------ *)
(** * Outcomes in terms of the inputs *)

Definition numbered {A} (l : list A) : list (nat * A) := combine (seq 0 (List.length l)) l.
Definition has_label (l : string) (a : annotation) : bool := existsb (String.eqb l) (a_labels a).

(* number of ground truths with label [l] / of (prediction, label, score) with label
   [l] that satisfy [ok], in the selected datums *)
Definition gts_where (sel : detection -> bool) (ok : detection -> nat -> bool) (ds : list detection) (l : string) : nat :=
  list_sum_nat (map (fun d => if sel d
    then countb (fun ga => has_label l (snd ga) && ok d (fst ga)) (numbered (t_gts d)) else 0) ds).
Definition pds_where (sel : detection -> bool) (ok : detection -> nat -> annotation -> Z -> bool) (ds : list detection) (l : string) : nat :=
  list_sum_nat (map (fun d => if sel d
    then list_sum_nat (map (fun pa => countb (fun ls => String.eqb l (fst ls) && ok d (fst pa) (snd pa) (snd ls))
                                             (combine (a_labels (snd pa)) (a_scores (snd pa)))) (numbered (t_pds d)))
    else 0) ds).

(* prediction [p] overlaps a ground truth with label [l] *)
Definition meets (eps : Z) (d : detection) (p : nat) (l : string) : bool :=
  existsb (fun ga => has_label l (snd ga) && (eps <=? t_iou d p (fst ga))%Z) (numbered (t_gts d)).
(* the labels of a prediction that take part in the ranking: those under which it
   meets a ground truth, or all of them if there is none *)
Definition takes_part (eps : Z) (d : detection) (p : nat) (a : annotation) (l : string) : bool :=
  meets eps d p l || forallb (fun l' => negb (meets eps d p l')) (a_labels a).

(* ground truth [g] is the one with label [l] that prediction [p] overlaps most *)
Definition aims_at (d : detection) (p g : nat) (l : string) : bool :=
  forallb (fun ga => negb (has_label l (snd ga)) || (t_iou d p (fst ga) <=? t_iou d p g)%Z) (numbered (t_gts d)).
(* a prediction with label [l] and a sufficient score aims at [g] and overlaps it enough *)
Definition detected (eps t s : Z) (d : detection) (l : string) (g : nat) : bool :=
  existsb (fun pa => existsb (fun ls => String.eqb l (fst ls) && (eps <? snd ls)%Z && (s <=? snd ls)%Z)
                             (combine (a_labels (snd pa)) (a_scores (snd pa)))
                     && (eps <=? t_iou d (fst pa) g)%Z && (t <=? t_iou d (fst pa) g)%Z && aims_at d (fst pa) g l)
          (numbered (t_pds d)).
(* no prediction overlaps two ground truths of one label equally *)
Definition no_ties (eps : Z) (d : detection) : Prop :=
  forall p g g' ga ga' l, nth_error (t_gts d) g = Some ga -> nth_error (t_gts d) g' = Some ga' ->
    has_label l ga = true -> has_label l ga' = true ->
    (eps <= t_iou d p g)%Z -> t_iou d p g = t_iou d p g' -> g = g'.

(* ------------------------------------------------------------------ *)
(** * One-to-one matching of a datum *)

(* rows listed by descending score, then descending IoU *)
Definition ranked_before (a b : drow) : Prop :=
  (d_score b < d_score a)%Z \/ (d_score a = d_score b /\ (d_iou b <= d_iou a)%Z).
Definition sorted_tables (tables : list (list drow)) : Prop := Forall (StronglySorted ranked_before) tables.

(* best score of a prediction *)
Definition top_score (a : annotation) : Z :=
  match a_scores a with [] => 0%Z | x :: l => fold_left Z.max l x end.
(* pair (p', g') comes no later than (p, g): by best score, then by overlap *)
Definition no_later (d : detection) (p' : nat) (pa' : annotation) (g' p : nat) (pa : annotation) (g : nat) : Prop :=
  (top_score pa < top_score pa')%Z \/ (top_score pa = top_score pa' /\ (t_iou d p g <= t_iou d p' g')%Z).

(* SPEC: [M] is a matching of the predictions of [d] with its ground truths, obtained
   by taking overlapping pairs best first *)
Record best_first (eps : Z) (d : detection) (M : nat -> nat -> bool) : Prop := {
  bf_pairs : forall p g, M p g = true ->
    exists pa, nth_error (t_pds d) p = Some pa /\ a_scores pa <> [] /\ g < List.length (t_gts d) /\ (eps <= t_iou d p g)%Z;
  bf_one_gt : forall p g g', M p g = true -> M p g' = true -> g = g';
  bf_one_pd : forall p p' g, M p g = true -> M p' g = true -> p = p';
  bf_taken : forall p pa g, nth_error (t_pds d) p = Some pa -> a_scores pa <> [] ->
    g < List.length (t_gts d) -> (eps <= t_iou d p g)%Z ->
    M p g = true \/
    exists p' pa' g', M p' g' = true /\ nth_error (t_pds d) p' = Some pa' /\ (p' = p \/ g' = g) /\ no_later d p' pa' g' p pa g
}.

(* score and overlap reach the thresholds *)
Definition reaches (eps t s : Z) (d : detection) (p g : nat) (sc : Z) : bool :=
  (eps <? sc)%Z && (s <=? sc)%Z && (eps <? t_iou d p g)%Z && (t <=? t_iou d p g)%Z.

(* sums over the selected datums with their numbers: pairs of a ground truth labelled
   [gl] and a prediction labelled [pl]; ground truths; predictions with a label *)
Definition over_datums (sel : detection -> bool) (ds : list detection) (f : nat -> detection -> nat) : nat :=
  list_sum_nat (map (fun x => if sel (snd x) then f (fst x) (snd x) else 0) (numbered ds)).
Definition count_pairs (gl pl : string) (d : detection) (ok : nat -> nat -> Z -> bool) : nat :=
  list_sum_nat (map (fun ga => if has_label gl (snd ga) then
    list_sum_nat (map (fun pa =>
      countb (fun ls => String.eqb pl (fst ls) && ok (fst ga) (fst pa) (snd ls))
             (combine (a_labels (snd pa)) (a_scores (snd pa)))) (numbered (t_pds d)))
    else 0) (numbered (t_gts d))).
Definition count_gts (gl : string) (d : detection) (ok : nat -> bool) : nat :=
  countb (fun ga => has_label gl (snd ga) && ok (fst ga)) (numbered (t_gts d)).
Definition count_pds (pl : string) (d : detection) (ok : nat -> Z -> bool) : nat :=
  list_sum_nat (map (fun pa =>
    countb (fun ls => String.eqb pl (fst ls) && ok (fst pa) (snd ls)) (combine (a_labels (snd pa)) (a_scores (snd pa))))
    (numbered (t_pds d))).
(* some label of some prediction is matched with ground truth [g] and reaches the
   thresholds / some label of prediction [p] is matched and reaches them *)
Definition gt_covered (eps t s : Z) (d : detection) (M : nat -> nat -> bool) (g : nat) : bool :=
  existsb (fun pa => M (fst pa) g && existsb (fun sc => reaches eps t s d (fst pa) g sc) (a_scores (snd pa)))
    (numbered (t_pds d)).
Definition pd_covered (eps t s : Z) (d : detection) (M : nat -> nat -> bool) (p : nat) : bool :=
  match nth_error (t_pds d) p with
  | Some pa => existsb (fun g => M p g && existsb (fun sc => reaches eps t s d p g sc) (a_scores pa))
                 (seq 0 (List.length (t_gts d)))
  | None => false
  end.
(* no two competing pairs (sharing a prediction or a ground truth) tie *)
Definition no_pair_ties (eps : Z) (d : detection) : Prop :=
  forall p pa g p' pa' g', nth_error (t_pds d) p = Some pa -> nth_error (t_pds d) p' = Some pa' ->
    g < List.length (t_gts d) -> g' < List.length (t_gts d) -> (eps <= t_iou d p g)%Z -> (eps <= t_iou d p' g')%Z ->
    p = p' \/ g = g' -> top_score pa = top_score pa' -> t_iou d p g = t_iou d p' g' -> p = p' /\ g = g'.

(* ------------------------------------------------------------------ *)
(** * Examples of a datum *)

(* ground truth [g] and prediction [p] agree: matched, some label of [p] is the label
   of [g] and reaches the thresholds *)
Definition agrees (eps t s : Z) (d : detection) (M : nat -> nat -> bool) (g p : nat) : Prop :=
  exists ga pa k l sc, nth_error (t_gts d) g = Some ga /\ nth_error (t_pds d) p = Some pa /\
    nth_error (a_labels pa) k = Some l /\ nth_error (a_scores pa) k = Some sc /\ has_label l ga = true /\
    M p g = true /\ reaches eps t s d p g sc = true.
(* label number [k] of prediction [p] is reported wrongly: it reaches the thresholds
   and either its match has another label or the prediction has no match *)
Definition wrong_pd (eps t s : Z) (d : detection) (M : nat -> nat -> bool) (p k : nat) : Prop :=
  exists pa l sc, nth_error (t_pds d) p = Some pa /\ nth_error (a_labels pa) k = Some l /\ nth_error (a_scores pa) k = Some sc /\
    ((exists g ga, nth_error (t_gts d) g = Some ga /\ has_label l ga = false /\ M p g = true /\ reaches eps t s d p g sc = true)
     \/ ((eps < sc)%Z /\ (s <= sc)%Z /\ pd_covered eps t s d M p = false)).
(* ground truth [g] is missed: matched with another label, or not matched *)
Definition missed_gt (eps t s : Z) (d : detection) (M : nat -> nat -> bool) (g : nat) : Prop :=
  exists ga, nth_error (t_gts d) g = Some ga /\
    ((exists p pa k l sc, nth_error (t_pds d) p = Some pa /\ nth_error (a_labels pa) k = Some l /\ nth_error (a_scores pa) k = Some sc /\
        has_label l ga = false /\ M p g = true /\ reaches eps t s d p g sc = true)
     \/ gt_covered eps t s d M g = false).
Definition gt_uid_of (d : detection) (g : nat) : option (option string) := option_map (fun a => Some (a_uid a)) (nth_error (t_gts d) g).
Definition pd_uid_of (d : detection) (p : nat) : option (option string) := option_map (fun a => Some (a_uid a)) (nth_error (t_pds d) p).

(* SPEC: the lists of an example name each such item once *)
Definition lists_once {X U} (P : X -> Prop) (name : X -> U) (l : list U) : Prop :=
  exists T, NoDup T /\ (forall x, In x T <-> P x) /\ l = map name T.
Definition det_example_ok (eps t s : Z) (d : detection) (M : nat -> nat -> bool) (ex : det_example) : Prop :=
  lists_once (fun x => agrees eps t s d M (fst x) (snd x)) (fun x => (gt_uid_of d (fst x), pd_uid_of d (snd x))) (dx_tp ex)
  /\ lists_once (fun x => wrong_pd eps t s d M (fst x) (snd x)) (fun x => pd_uid_of d (fst x)) (dx_fp ex)
  /\ lists_once (fun g => missed_gt eps t s d M g) (gt_uid_of d) (dx_fn ex).

(* ------------------------------------------------------------------ *)
(** * Ranking of the predictions of one label *)

(* SPEC: [P] lists the predictions (datum number, prediction number, score) that take
   part under label [v], each once, by descending score *)
Record ap_ranking (eps : Z) (sel : detection -> bool) (ds : list detection) (v : string) (P : list (nat * nat * Z)) : Prop := {
  ar_once : NoDup (map fst P);
  ar_items : forall i p sc, In (i, p, sc) P <->
    exists d pa n, nth_error ds i = Some d /\ sel d = true /\ nth_error (t_pds d) p = Some pa /\
      nth_error (a_labels pa) n = Some v /\ nth_error (a_scores pa) n = Some sc /\ takes_part eps d p pa v = true;
  ar_sorted : StronglySorted (fun a b => (snd b <= snd a)%Z) P
}.
(* the prediction claims ground truth [g] of datum [i]: it aims at it and overlaps it enough *)
Definition claims (eps t : Z) (ds : list detection) (v : string) (x : nat * nat * Z) (i g : nat) : Prop :=
  fst (fst x) = i /\
  exists d ga, nth_error ds i = Some d /\ nth_error (t_gts d) g = Some ga /\ has_label v ga = true /\
    (eps <= t_iou d (snd (fst x)) g)%Z /\ (t <= t_iou d (snd (fst x)) g)%Z /\ aims_at d (snd (fst x)) g v = true.
(* SPEC: a prediction of the ranking is a hit iff it is the first one to claim its
   ground truth (and its score is positive) *)
Definition ap_hits (eps t : Z) (ds : list detection) (v : string) (P : list (nat * nat * Z)) (hits : list bool) : Prop :=
  List.length hits = List.length P /\
  forall P1 x P2, P = P1 ++ x :: P2 ->
    (nth_error hits (List.length P1) = Some true <->
     (eps < snd x)%Z /\ exists i g, claims eps t ds v x i g /\ forall y, In y P1 -> ~ claims eps t ds v y i g).
