(* Specification vocabulary for filtered object detection evaluators: which ground
   truths and predictions remain, and the data restricted to them. *)
From Verif Require Import Prelude Counting CacheModel CacheSpec ClsModel FlowModel DetModel DetExModel DetSpec DetFlowModel DetFilterModel
  DetOrderProofs DetReportModel DetEnd.
From Coq Require Import String QArith.
Local Open Scope nat_scope.
Local Open Scope list_scope.

(* SPEC: what remains of each datum: ground truths by position, labels of predictions
   by position and name *)
Record dview : Type := MkView {
  v_gt : detection -> nat -> bool;
  v_pd : detection -> nat -> string -> bool
}.
Definition full_view : dview := MkView (fun _ _ => true) (fun _ _ _ => true).
(* SPEC: a view restricted to some datums, ground truths and prediction labels *)
Definition restrict (w : dview) (sel : detection -> bool) (sg : detection -> nat -> bool)
    (sp : detection -> nat -> string -> bool) : dview :=
  MkView (fun d g => sel d && sg d g && v_gt w d g) (fun d p l => sel d && sp d p l && v_pd w d p l).

(* SPEC: the row carries ground truth [g] of datum [i] / prediction [p] of datum [i]
   under label [v]; all columns about it have the values of the input *)
Definition carries_gt (ds : list detection) (L : list string) (i g : nat) (r : drow) : Prop :=
  exists d ga v gi, nth_error ds i = Some d /\ nth_error (t_gts d) g = Some ga /\ a_labels ga = [v] /\ index_of v L = Some gi /\
    d_uid r = t_uid d /\ d_datum r = Z.of_nat i /\
    d_gt_uid r = Some (a_uid ga) /\ d_gt r = gt_id ds i g /\ d_gt_label r = Some v /\ d_gl r = Z.of_nat gi.
Definition carries_pd (ds : list detection) (L : list string) (i p : nat) (v : string) (s : Z) (r : drow) : Prop :=
  exists d pa n pi, nth_error ds i = Some d /\ nth_error (t_pds d) p = Some pa /\
    nth_error (a_labels pa) n = Some v /\ nth_error (a_scores pa) n = Some s /\ index_of v L = Some pi /\
    d_uid r = t_uid d /\ d_datum r = Z.of_nat i /\
    d_pd_uid r = Some (a_uid pa) /\ d_pd r = pd_id ds i p /\ d_pd_label r = Some v /\ d_pl r = Z.of_nat pi /\ d_score r = s.

(* a filter expression (None = absent) that selects exactly the ground truths [sg] /
   the prediction labels [sp]; it may use every column about the annotation, its
   value on rows without the annotation is arbitrary *)
Definition gt_filter (ds : list detection) (L : list string) (f : option (drow -> bool)) (sg : detection -> nat -> bool) : Prop :=
  forall d i g, nth_error ds i = Some d -> g < List.length (t_gts d) ->
    match f with
    | None => sg d g = true
    | Some f => forall r, carries_gt ds L i g r -> f r = sg d g
    end.
Definition pd_filter (ds : list detection) (L : list string) (f : option (drow -> bool)) (sp : detection -> nat -> string -> bool) : Prop :=
  forall d i p pa v, nth_error ds i = Some d -> nth_error (t_pds d) p = Some pa -> In v (a_labels pa) ->
    match f with
    | None => sp d p v = true
    | Some f => forall r s, carries_pd ds L i p v s r -> f r = sp d p v
    end.

(* SPEC: the input restricted to a view *)
Definition kept_gts (w : dview) (d : detection) : list (nat * annotation) :=
  filter (fun ga => v_gt w d (fst ga)) (numbered (t_gts d)).
Definition kept_labels (w : dview) (d : detection) (p : nat) (a : annotation) : annotation :=
  let ls := filter (fun ls => v_pd w d p (fst ls)) (combine (a_labels a) (a_scores a)) in
  MkAnn (a_uid a) (map fst ls) (map snd ls).
Definition kept_pds (w : dview) (d : detection) : list (nat * annotation) :=
  filter (fun pa => negb (Nat.eqb (List.length (a_labels (snd pa))) 0))
    (map (fun pa => (fst pa, kept_labels w d (fst pa) (snd pa))) (numbered (t_pds d))).
Definition pruned (w : dview) (d : detection) : detection :=
  MkDet (t_uid d) (map snd (kept_gts w d)) (map snd (kept_pds w d))
    (fun p g => match nth_error (map fst (kept_pds w d)) p, nth_error (map fst (kept_gts w d)) g with
                | Some p0, Some g0 => t_iou d p0 g0
                | _, _ => 0%Z
                end).

(* SPEC: evaluators that show the view [w] of the input [ds]: built from [ds], or
   obtained by filtering such an evaluator, with either back end; [L] numbers the
   labels *)
Inductive shows (eps unit : Z) (ds : list detection) (L : list string) : dview -> deval -> Prop :=
| Shows_built e : det_evaluator eps unit ds e -> (forall v vi, label_no e v vi <-> index_of v L = Some vi) ->
    shows eps unit ds L full_view e
| Shows_filter_mem w e bs rb datums gts pds sel sg sp e' :
    shows eps unit ds L w e -> det_selects ds datums sel -> gt_filter ds L gts sg -> pd_filter ds L pds sp ->
    det_filter_mem unit bs rb e datums gts pds = Done e' ->
    shows eps unit ds L (restrict w sel sg sp) e'
| Shows_filter_file w e bs rpf rb datums gts pds sel sg sp e' :
    batching_ok rb ->
    shows eps unit ds L w e -> det_selects ds datums sel -> gt_filter ds L gts sg -> pd_filter ds L pds sp ->
    det_filter_file unit bs rpf rb e datums gts pds = Done e' ->
    shows eps unit ds L (restrict w sel sg sp) e'.

(* SPEC: nothing of the view is in the data *)
Definition nothing_left (w : dview) (ds : list detection) : Prop :=
  forall d, In d ds -> t_gts (pruned w d) = [] /\ t_pds (pruned w d) = [].
(* SPEC: the view restricted to the datums of a metric call *)
Definition by_selection (w : dview) (sel : detection -> bool) : dview := restrict w sel (fun _ _ => true) (fun _ _ _ => true).
(* SPEC: label [l] in one evaluator has the metrics of label [l'] in another one *)
Record same_report (eps : Z) (e : deval) (datums : drow -> bool) (l : Z) (e' : deval) (datums' : drow -> bool) (l' : Z) : Prop := {
  sr_gts : rep_gts e datums l = rep_gts e' datums' l';
  sr_tp : forall t s, (0 < t)%Z -> rep_tp eps e datums t s l = rep_tp eps e' datums' t s l';
  sr_fp : forall t s, (0 < t)%Z -> rep_fp eps e datums t s l = rep_fp eps e' datums' t s l';
  sr_fn : forall t s, (0 < t)%Z -> rep_fn eps e datums t s l = rep_fn eps e' datums' t s l';
  sr_precision : forall t s, (0 < t)%Z -> rep_precision eps e datums t s l = rep_precision eps e' datums' t s l';
  sr_recall : forall t s, (0 < t)%Z -> rep_recall eps e datums t s l = rep_recall eps e' datums' t s l';
  sr_f1 : forall t s, (0 < t)%Z -> rep_f1 eps e datums t s l = rep_f1 eps e' datums' t s l';
  sr_ap : forall t, (0 < t)%Z -> rep_ap eps e datums t l = rep_ap eps e' datums' t l';
  sr_curve : forall t, (0 < t)%Z -> rep_pr_curve eps e datums t l = rep_pr_curve eps e' datums' t l';
  sr_ar : forall ious s, (forall t, In t ious -> (0 < t)%Z) -> rep_ar eps e datums ious s l = rep_ar eps e' datums' ious s l'
}.
(* SPEC: a label without data *)
Record empty_report (eps : Z) (e : deval) (datums : drow -> bool) (l : Z) : Prop := {
  er_gts : rep_gts e datums l = 0;
  er_counts : forall t s, (0 < t)%Z -> rep_tp eps e datums t s l = 0 /\ rep_fp eps e datums t s l = 0 /\ rep_fn eps e datums t s l = 0%Z;
  er_rates : forall t s, (0 < t)%Z -> (rep_precision eps e datums t s l == 0 /\ rep_recall eps e datums t s l == 0 /\ rep_f1 eps e datums t s l == 0)%Q;
  er_ap : forall t, (0 < t)%Z -> (rep_ap eps e datums t l == 0)%Q
}.

(* SPEC: two views that agree on the data *)
Definition same_view (ds : list detection) (u1 u2 : dview) : Prop :=
  forall i d, nth_error ds i = Some d ->
    (forall g, g < List.length (t_gts d) -> v_gt u1 d g = v_gt u2 d g) /\
    (forall p pa l, nth_error (t_pds d) p = Some pa -> In l (a_labels pa) -> v_pd u1 d p l = v_pd u2 d p l).
