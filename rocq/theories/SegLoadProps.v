(* C133 (segmentation): loading a filtered cache without its labels. *)
From Verif Require Import Prelude Counting CacheModel CacheSpec ClsModel ClsSpec FlowModel SegModel SegSpec SegProofs SegFlowProofs SegDemo SegLoadSpec SegLoadProofs.
From Coq Require Import QArith String.
Local Open Scope string_scope.
Local Open Scope nat_scope.
Local Open Scope list_scope.

(* full claim: the metrics can be computed on a filtered cache that is loaded without labels.
   They can exactly if the labels that remain are the first ones that were added, and the
   report is then the filtered one restricted to these labels. *)
Theorem C133_seg_works_partial : forall ss v w e e' bs rpf ed eg ep d, obtained ss v e -> Forall clean ss ->
  datum_expr ss ed (v_datum w) -> gt_expr ss eg (v_gt w) -> pd_expr ss ep (v_pd w) ->
  seg_filter_file bs rpf e ed eg ep = Done e' -> Permutation d (seg_filter_dir bs rpf e ed eg ep) ->
  forall m ed' sel, countable ss -> datum_expr ss ed' sel -> first_labels ss (and_view v w) m ->
  exists rep, seg_compute (seg_load d None) ed' = Some rep /\
    report_about ss (with_datums (and_view v w) sel) (firstn m (seg_labels ss)) rep.
Proof. exact load_works. Qed.
Print Assumptions C133_seg_works_partial.
Theorem C133_seg_needs : forall ss v w e e' bs rpf ed eg ep d, obtained ss v e -> Forall clean ss ->
  datum_expr ss ed (v_datum w) -> gt_expr ss eg (v_gt w) -> pd_expr ss ep (v_pd w) ->
  seg_filter_file bs rpf e ed eg ep = Done e' -> Permutation d (seg_filter_dir bs rpf e ed eg ep) ->
  forall ed' rep, seg_compute (seg_load d None) ed' = Some rep -> exists m, first_labels ss (and_view v w) m.
Proof. exact load_needs. Qed.
Print Assumptions C133_seg_needs.

(* keeping the label that was added first works *)
Definition only_cat : view := MkView (fun _ => true) (fun _ l => String.eqb l "cat") (fun _ l => String.eqb l "cat").
Lemma only_cat_first : first_labels sdemo (and_view all_view only_cat) 1.
Proof.
  assert (E : seg_labels sdemo = ["cat"; "dog"; "fox"]) by reflexivity.
  intros i l Hl. rewrite E in Hl. destruct i as [|[|[|i]]]; cbn in Hl; [| | |destruct i; discriminate]; injection Hl as <-; split; intros H; try lia;
    try (destruct H as (k & s & _ & _ & _ & H); cbn in H; intuition discriminate).
  exists 0, img1. repeat split; [vm_compute; auto|left; reflexivity].
Qed.
Example C133_seg_example : exists e' rep,
  seg_filter_file 4 4 sdemo_file None (on_gt (fun l => String.eqb l "cat")) (on_pd (fun l => String.eqb l "cat")) = Done e' /\
  first_labels sdemo (and_view all_view only_cat) 1 /\
  seg_compute (seg_load (seg_filter_dir 4 4 sdemo_file None (on_gt (fun l => String.eqb l "cat")) (on_pd (fun l => String.eqb l "cat"))) None) None = Some rep /\
  map fst (sr_precision rep) = [Some "cat"].
Proof. eexists. eexists. split; [vm_compute; reflexivity|]. split; [exact only_cat_first|]. split; vm_compute; reflexivity. Qed.

(* the mean IoU is then taken over fewer labels than before *)
Theorem C133_seg_same_mean_refuted : exists eg ep e' r1 r2 m1 m2,
  obtained sdemo all_view sdemo_file /\ gt_expr sdemo eg (v_gt only_cat) /\ pd_expr sdemo ep (v_pd only_cat) /\
  seg_filter_file 4 4 sdemo_file None eg ep = Done e' /\ seg_compute e' None = Some r1 /\
  seg_compute (seg_load (seg_filter_dir 4 4 sdemo_file None eg ep) None) None = Some r2 /\
  sr_miou r1 = Some m1 /\ sr_miou r2 = Some m2 /\ (m1 == 1 # 9)%Q /\ (m2 == 1 # 3)%Q.
Proof.
  exists (on_gt (fun l => String.eqb l "cat")), (on_pd (fun l => String.eqb l "cat")). do 5 eexists.
  split; [exact sdemo_file_ok|]. split; [apply label_gt|]. split; [apply label_pd|]. split; [vm_compute; reflexivity|].
  split; [vm_compute; reflexivity|]. split; [vm_compute; reflexivity|]. split; [vm_compute; reflexivity|]. split; [vm_compute; reflexivity|].
  split; vm_compute; reflexivity.
Qed.
Print Assumptions C133_seg_same_mean_refuted.
