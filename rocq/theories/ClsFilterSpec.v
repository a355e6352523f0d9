(* Specification vocabulary for filtered classification evaluators: which candidates
   remain, and the data restricted to them.  Everything is defined on the user's input. *)
From Verif Require Import Prelude Counting CacheModel CacheSpec ClsModel ClsSpec RocModel FlowModel FlowProofs FlowMore ClsFilterModel.
From Coq Require Import String QArith.
Local Open Scope nat_scope.
Local Open Scope list_scope.

(* SPEC: which candidates of each datum remain, by label *)
Notation cview := (classification -> string -> bool).
Definition all_kept : cview := fun _ _ => true.
(* SPEC: a view restricted by the three expressions of Evaluator.filter: the candidate
   is selected by the datum and by the prediction expression and some remaining
   candidate of the datum is selected by the ground truth expression *)
Definition crestrict (w sel sg sp : cview) : cview := fun c l =>
  w c l && sel c l && existsb (fun x => w c x && sel c x && sg c x) (c_predictions c) && sp c l.
(* SPEC: a view seen through the datum expression of a compute function *)
Definition cselect (w sel : cview) : cview := fun c l => w c l && sel c l.

(* SPEC: the expression [f] on rows means [p] on the candidates of the input; an absent
   expression selects everything *)
Definition expresses (cs : list classification) (f : crow -> bool) (p : cview) : Prop :=
  forall r d c, In r (List.concat (writes_of cs)) -> r_datum r = Z.of_nat d -> nth_error cs d = Some c ->
    f r = p c (r_pd_label r).
Definition opt_expresses (cs : list classification) (f : option (crow -> bool)) (p : cview) : Prop :=
  match f with Some f => expresses cs f p | None => forall c l, p c l = true end.

(* SPEC: the datum with its remaining candidates; the data with the remaining datums *)
Definition viewed (w : cview) (c : classification) : classification :=
  let ps := filter (fun p => w c (fst p)) (candidates c) in
  MkCls (c_uid c) (c_groundtruth c) (map fst ps) (map snd ps).
Definition visible (w : cview) (c : classification) : bool := existsb (w c) (c_predictions c).
Definition reduced (w : cview) (cs : list classification) : list classification :=
  map (viewed w) (filter (visible w) cs).

(* SPEC: the labels predicted for a datum (the top candidate is that of the full input)
   that remain *)
Definition vpositives (w : cview) (hardmax : bool) (pass : Z -> bool) (c : classification) : list string :=
  filter (w c) (positives hardmax pass c).
(* SPEC: the four outcomes of a datum for label [l] *)
Definition v_tp w hm pass l c := String.eqb (c_groundtruth c) l && smem l (vpositives w hm pass c).
Definition v_fp w hm pass l c := negb (String.eqb (c_groundtruth c) l) && smem l (vpositives w hm pass c).
Definition v_fn w hm pass l c := String.eqb (c_groundtruth c) l
  && ((smem l (c_predictions (viewed w c)) && negb (smem l (vpositives w hm pass c)))
      || existsb (fun x => negb (String.eqb x l)) (vpositives w hm pass c)).
Definition v_tn w hm pass l c := negb (String.eqb (c_groundtruth c) l)
  && (smem l (c_predictions (viewed w c)) && negb (smem l (vpositives w hm pass c))).

(* SPEC: the evaluators a user can obtain for the data [cs], with the remaining view *)
Inductive cls_evaluator (cs : list classification) : cview -> ceval -> Prop :=
| cls_built_mem bs rb h b e :
    wellformed_calls h -> data_of h = cs ->
    mb_finalize bs rb (fold_left (mb_call bs rb) h mb_init) = (b, Done e) ->
    cls_evaluator cs all_kept (ce_mem e)
| cls_built_file bs rpf rb h b labels :
    batching_ok rb -> wellformed_calls h -> data_of h = cs ->
    fb_finalize bs rpf rb (fold_left (fb_call bs rpf rb) h fb_init) = (b, Done labels) ->
    cls_evaluator cs all_kept (ce_file b labels)
| cls_filtered_mem w e bs rb datums gts pds sel sg sp e' :
    cls_evaluator cs w e -> expresses cs datums sel -> opt_expresses cs gts sg -> opt_expresses cs pds sp ->
    cls_filter_mem bs rb e datums gts pds = Done e' ->
    cls_evaluator cs (crestrict w sel sg sp) e'
| cls_filtered_file w e bs rpf rb datums gts pds sel sg sp e' :
    batching_ok rb ->
    cls_evaluator cs w e -> expresses cs datums sel -> opt_expresses cs gts sg -> opt_expresses cs pds sp ->
    cls_filter_file bs rpf rb e datums gts pds = Done e' ->
    cls_evaluator cs (crestrict w sel sg sp) e'.

(* SPEC: label [l] has number [i] in the evaluator *)
Definition has_number (e : ceval) (l : string) (i : nat) : Prop := dict_get (ce_labels e) (Z.of_nat i) = Some l.

(* SPEC: in every remaining datum the winning candidate remains *)
Definition winners_kept (w : cview) (cs : list classification) : Prop :=
  forall c, In c cs -> visible w c = true -> match top c with Some (l, _) => w c l = true | None => False end.
