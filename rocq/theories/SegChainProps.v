(* C137 (segmentation): several filters in any order or all at once.
   Vocabulary: SegSpec.v and SegChainSpec.v; [sargs]: the arguments of one call of
   Evaluator.filter with their meaning; [seg_calls e zs r]: calling filter with [zs] one
   after the other, each time into memory or into files, ends in [r].  Model: SegModel.v. *)
From Verif Require Import Prelude CacheModel CacheSpec ClsModel ClsSpec FlowModel DetFlowModel SegModel SegSpec SegFlowProofs SegDemo SegChainSpec SegChainProofs.
From Coq Require Import QArith String.
Local Open Scope string_scope.
Local Open Scope nat_scope.
Local Open Scope list_scope.

Theorem C137_seg_any_order : forall ss v e1 e2 xs ys r1 r2, Forall clean ss -> countable ss -> Forall (sargs_ok ss) xs -> Permutation xs ys ->
  obtained ss v e1 -> obtained ss v e2 -> seg_calls e1 xs r1 -> seg_calls e2 ys r2 ->
  (r1 = EmptyCache /\ r2 = EmptyCache /\ forall s, In s ss -> v_datum (sremains v xs) s = false)
  \/ (exists f1 f2, r1 = Done f1 /\ r2 = Done f2 /\ same_seg_reports ss (sremains v xs) f1 f2).
Proof. exact seg_any_order. Qed.
Print Assumptions C137_seg_any_order.
Theorem C137_seg_in_one_call : forall ss v e1 e2 xs r1 r2, Forall clean ss -> countable ss -> Forall (sargs_ok ss) xs -> xs <> [] ->
  obtained ss v e1 -> obtained ss v e2 -> seg_calls e1 xs r1 -> seg_call e2 (stogether xs) r2 ->
  (r1 = EmptyCache /\ r2 = EmptyCache /\ forall s, In s ss -> v_datum (sremains v xs) s = false)
  \/ (exists f1 f2, r1 = Done f1 /\ r2 = Done f2 /\ same_seg_reports ss (sremains v xs) f1 f2).
Proof. exact seg_in_one_call. Qed.
Print Assumptions C137_seg_in_one_call.

(* ------------------------------------------------ examples *)
Definition first_img (u : string) : bool := String.eqb u "img1".
Definition is_cat (l : string) : bool := String.eqb l "cat".
Definition z_first : sargs := MkSargs (on_uid first_img) None None (MkView (fun s => first_img (sg_uid s)) (fun _ _ => true) (fun _ _ => true)).
Definition z_cats : sargs := MkSargs None (on_gt is_cat) None (MkView (fun _ => true) (fun _ l => is_cat l) (fun _ _ => true)).
Definition z_none : sargs := MkSargs (on_uid (fun _ => false)) None None (MkView (fun _ => false) (fun _ _ => true) (fun _ _ => true)).
Lemma z_ok : Forall (sargs_ok sdemo) [z_first; z_cats; z_none].
Proof.
  repeat constructor; try apply none_datum; try apply none_gt; try apply none_pd.
  - apply (uid_datum sdemo first_img).
  - intros r k s l _ _ _ E _. cbn. rewrite E. reflexivity.
Qed.
Definition first_then_cats : seval := Eval vm_compute in
  get_eval (seg_filter_file 2 3 (get_eval (seg_filter_mem 3 sdemo_mem (on_uid first_img) None None)) None (on_gt is_cat) None).
Definition cats_then_first : seval := Eval vm_compute in
  get_eval (seg_filter_mem 4 (get_eval (seg_filter_file 2 2 sdemo_file None (on_gt is_cat) None)) (on_uid first_img) None None).
(* the cats of the first image in both orders: two of its three ground truth pixels *)
Example C137_seg_example :
  obtained sdemo all_view sdemo_mem /\ obtained sdemo all_view sdemo_file /\ Forall clean sdemo /\ countable sdemo /\
  Forall (sargs_ok sdemo) [z_first; z_cats] /\
  seg_calls sdemo_mem [z_first; z_cats] (Done first_then_cats) /\ seg_calls sdemo_file [z_cats; z_first] (Done cats_then_first) /\
  same_seg_reports sdemo (sremains all_view [z_first; z_cats]) first_then_cats cats_then_first /\
  si_gt_pixels (seg_info first_then_cats None None None) = 2%Z /\ si_gt_pixels (seg_info sdemo_mem None None None) = 4%Z /\
  seg_calls sdemo_mem [z_cats; z_none] EmptyCache.
Proof.
  assert (A : seg_calls sdemo_mem [z_first; z_cats] (Done first_then_cats)).
  { eapply scalls_cons; [exact (scall_mem sdemo_mem z_first 3)|eapply scalls_cons; [|constructor]].
    assert (E : Done first_then_cats = seg_filter_file 2 3 (get_eval (seg_filter_mem 3 sdemo_mem (on_uid first_img) None None)) (z_datums z_cats) (z_gts z_cats) (z_pds z_cats))
      by (vm_compute; reflexivity).
    rewrite E. apply scall_file. }
  assert (B : seg_calls sdemo_file [z_cats; z_first] (Done cats_then_first)).
  { eapply scalls_cons; [exact (scall_file sdemo_file z_cats 2 2)|eapply scalls_cons; [|constructor]].
    assert (E : Done cats_then_first = seg_filter_mem 4 (get_eval (seg_filter_file 2 2 sdemo_file None (on_gt is_cat) None)) (z_datums z_first) (z_gts z_first) (z_pds z_first))
      by (vm_compute; reflexivity).
    rewrite E. apply scall_mem. }
  assert (O : Forall (sargs_ok sdemo) [z_first; z_cats]) by (pose proof z_ok as Z; inversion_clear Z as [|? ? Z1 Z2]; inversion_clear Z2; constructor; [assumption|constructor; [assumption|constructor]]).
  split; [exact sdemo_mem_ok|]. split; [exact sdemo_file_ok|]. split; [exact sdemo_clean|]. split; [exact sdemo_countable|].
  split; [exact O|]. split; [exact A|]. split; [exact B|]. split; [|split; [vm_compute; reflexivity|split; [vm_compute; reflexivity|]]].
  - destruct (C137_seg_any_order sdemo all_view sdemo_mem sdemo_file _ _ _ _ sdemo_clean sdemo_countable O (perm_swap z_cats z_first [])
      sdemo_mem_ok sdemo_file_ok A B) as [(E & _)|(f1 & f2 & E1 & E2 & S)]; [discriminate|].
    injection E1 as <-. injection E2 as <-. exact S.
  - eapply scalls_cons; [exact (scall_mem sdemo_mem z_cats 3)|].
    apply scalls_raise; [exact (scall_mem _ z_none 3)|discriminate].
Qed.
