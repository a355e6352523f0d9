(* C138: reports of segmentations whose labels are renamed. *)
From Verif Require Import Prelude Counting CacheModel CacheSpec ClsModel ClsSpec ClsLabelProofs FlowModel DetFlowModel
  SegModel SegSpec SegPixelProofs SegProofs SegStoreProofs SegLabelProofs SegFlowProofs SegMetricProofs SegInfoProofs SegMore SegChainProofs
  ClsRescoreProofs ClsRenameSpec ClsRenameProofs SegRenameSpec.
From Coq Require Import QArith String Lia.
Local Notation length := List.length (only parsing).
Local Notation concat := List.concat (only parsing).
Local Open Scope nat_scope.
Local Open Scope list_scope.

Lemma list_sum_map {A B} (g : A -> B) (h : B -> nat) (k : A -> nat) l : (forall x, In x l -> h (g x) = k x) ->
  list_sum_nat (map h (map g l)) = list_sum_nat (map k l).
Proof. intros H. f_equal. rewrite map_map. apply map_ext_in. exact H. Qed.
Lemma find_map {A B} (g : A -> B) (p : B -> bool) l : find p (map g l) = option_map g (find (fun x => p (g x)) l).
Proof. induction l as [|x t IH]; [reflexivity|]. cbn. destruct (p (g x)); [reflexivity|exact IH]. Qed.
Lemma label_at_rename f bs p : label_at (map (brename f) bs) p = option_map f (label_at bs p).
Proof. unfold label_at. rewrite find_map. change (fun x => px (brename f x) p) with (fun x => px x p). destruct (find (fun x => px x p) bs); reflexivity. Qed.
Lemma label_at_in bs p l : label_at bs p = Some l -> exists b, In b bs /\ bm_label b = l.
Proof.
  unfold label_at. destruct (find (fun b => px b p) bs) as [b|] eqn:E; [|discriminate]. cbn. intros H. injection H as <-.
  apply find_some in E. exists b. tauto.
Qed.

Section Data.
  Variables h f : string -> string.
  Variable ss : list segmentation.
  Notation ss' := (map (srename h f) ss).
  Notation L := (seg_labels ss).
  Hypothesis Hf : names_apart f L.

  Lemma slabels_in s l : In s ss -> In l (seg_datum_labels s) -> In l L.
  Proof.
    intros Hs Hl. unfold seg_labels. apply first_appearance_In. right. apply in_concat. exists (seg_datum_labels s). split; [apply in_map; exact Hs|exact Hl].
  Qed.
  Lemma gt_label_in s b : In s ss -> In b (sg_gts s) -> In (bm_label b) L.
  Proof. intros Hs Hb. apply (slabels_in s _ Hs). apply in_app_iff. left. apply in_map. exact Hb. Qed.
  Lemma pd_label_in s b : In s ss -> In b (sg_pds s) -> In (bm_label b) L.
  Proof. intros Hs Hb. apply (slabels_in s _ Hs). apply in_app_iff. right. apply in_map. exact Hb. Qed.
  Lemma labels_srename : seg_labels ss' = map f L.
  Proof.
    unfold seg_labels at 1.
    assert (E : concat (map seg_datum_labels ss') = map f (concat (map seg_datum_labels ss))).
    { rewrite concat_map, !map_map. f_equal. apply map_ext. intros s. unfold seg_datum_labels. cbn [srename sg_gts sg_pds].
      rewrite map_app, !map_map. reflexivity. }
    rewrite E. change ([] : list string) with (map f []). apply (first_appearance_map f L Hf).
    - intros x [].
    - intros x Hx. unfold seg_labels. apply first_appearance_In. right. exact Hx.
  Qed.
  Lemma disjoint_rename bs : disjoint_masks bs -> disjoint_masks (map (brename f) bs).
  Proof.
    intros H i j b b' p Hi Hj Hn Hp Hp'. rewrite nth_error_map in Hi, Hj.
    destruct (nth_error bs i) as [x|] eqn:Ei; [|discriminate]. destruct (nth_error bs j) as [y|] eqn:Ej; [|discriminate].
    injection Hi as <-. injection Hj as <-. exact (H i j x y p Ei Ej Hn Hp Hp').
  Qed.
  Lemma clean_srename : Forall clean ss -> Forall clean ss'.
  Proof.
    intros F. rewrite Forall_forall in F |- *. intros s' Hs'. apply in_map_iff in Hs'. destruct Hs' as (s & <- & Hs).
    destruct (F s Hs) as ((S1 & S2) & D1 & D2 & L1 & L2). split; [split; [exact S1|]|split; [|split; [|split]]].
    - intros b Hb. cbn [srename sg_gts sg_pds sg_size] in *. destruct Hb as [Hb|Hb]; apply in_map_iff in Hb; destruct Hb as (x & <- & Hx); [exact (S2 x (or_introl Hx))|exact (S2 x (or_intror Hx))].
    - apply disjoint_rename. exact D1.
    - apply disjoint_rename. exact D2.
    - unfold distinct_labels in *. cbn [srename sg_gts]. rewrite map_map. change (fun x => bm_label (brename f x)) with (fun x => f (bm_label x)).
      rewrite <- map_map. apply NoDup_map_on; [|exact L1]. intros a b Ha Hb. apply in_map_iff in Ha, Hb. destruct Ha as (x & <- & Hx), Hb as (y & <- & Hy).
      apply Hf; eapply gt_label_in; eassumption.
    - unfold distinct_labels in *. cbn [srename sg_pds]. rewrite map_map. change (fun x => bm_label (brename f x)) with (fun x => f (bm_label x)).
      rewrite <- map_map. apply NoDup_map_on; [|exact L2]. intros a b Ha Hb. apply in_map_iff in Ha, Hb. destruct Ha as (x & <- & Hx), Hb as (y & <- & Hy).
      apply Hf; eapply pd_label_in; eassumption.
  Qed.
  Lemma total_srename l : total_pixels (map (srename h f) l) = total_pixels l.
  Proof. unfold total_pixels. rewrite map_map. reflexivity. Qed.
  Lemma countable_srename : countable ss -> countable ss'.
  Proof. unfold countable. rewrite total_srename. auto. Qed.

  Definition known (o : option string) : Prop := match o with Some l => In l L | None => True end.
  Section View.
    Variables u u' : view.
    Hypothesis Hu : renamed_sview h f ss u u'.

    Lemma vgt_srename s p : In s ss -> vgt u' (srename h f s) p = option_map f (vgt u s p) /\ known (vgt u s p).
    Proof.
      intros Hs. unfold vgt, gt_at. cbn [srename sg_gts]. rewrite label_at_rename.
      destruct (label_at (sg_gts s) p) as [l|] eqn:E; [|split; [reflexivity|exact I]]. destruct (label_at_in _ _ _ E) as (b & Hb & <-).
      cbn [option_map kept]. rewrite (proj1 (proj2 (Hu s Hs)) b Hb). destruct (v_gt u s (bm_label b)); split; try reflexivity; try exact I.
      cbn. eapply gt_label_in; eassumption.
    Qed.
    Lemma vpd_srename s p : In s ss -> vpd u' (srename h f s) p = option_map f (vpd u s p) /\ known (vpd u s p).
    Proof.
      intros Hs. unfold vpd, pd_at. cbn [srename sg_pds]. rewrite label_at_rename.
      destruct (label_at (sg_pds s) p) as [l|] eqn:E; [|split; [reflexivity|exact I]]. destruct (label_at_in _ _ _ E) as (b & Hb & <-).
      cbn [option_map kept]. rewrite (proj2 (proj2 (Hu s Hs)) b Hb). destruct (v_pd u s (bm_label b)); split; try reflexivity; try exact I.
      cbn. eapply pd_label_in; eassumption.
    Qed.
    Lemma npix_srename l P P' : incl l ss -> (forall s p, In s l -> P' (srename h f s) p = P s p) -> npix (map (srename h f) l) P' = npix l P.
    Proof. intros _ H. unfold npix. apply list_sum_map. intros s Hs. apply countb_ext. intros p _. apply H. exact Hs. Qed.
    Lemma filter_srename (p : segmentation -> bool) (q : segmentation -> bool) : (forall s, In s ss -> p (srename h f s) = q s) ->
      filter p ss' = map (srename h f) (filter q ss).
    Proof. apply filter_map_on. Qed.
    Lemma vcount_srename P P' : (forall g p, known g -> known p -> P' (option_map f g) (option_map f p) = P g p) -> vcount ss' u' P' = vcount ss u P.
    Proof.
      intros H. unfold vcount. rewrite (filter_srename _ (v_datum u) (fun s Hs => proj1 (Hu s Hs))). apply npix_srename.
      - intros s Hs. apply filter_In in Hs. tauto.
      - intros s p Hs. apply filter_In in Hs. destruct Hs as [Hs _]. destruct (vgt_srename s p Hs) as [-> K1], (vpd_srename s p Hs) as [-> K2]. apply H; assumption.
    Qed.
    Lemma is_label_rename o l : known o -> In l L -> is_label (option_map f o) (f l) = is_label o l.
    Proof. destruct o as [x|]; [|reflexivity]. cbn. intros Hx Hl. apply (apart_eqb f L); assumption. Qed.
    Lemma same_rename a b : known a -> known b -> same (option_map f a) (option_map f b) = same a b.
    Proof. destruct a as [x|], b as [y|]; try reflexivity. cbn. intros Hx Hy. apply (apart_eqb f L); assumption. Qed.
    Lemma same_none a : same (option_map f a) None = same a None.
    Proof. destruct a; reflexivity. Qed.
    Lemma same_none' a : same None (option_map f a) = same None a.
    Proof. destruct a; reflexivity. Qed.

    Lemma both_rename a b : In a L -> In b L ->
      vcount ss' u' (fun g p => is_label g (f a) && is_label p (f b)) = vcount ss u (fun g p => is_label g a && is_label p b).
    Proof. intros Ha Hb. apply vcount_srename. intros g p Kg Kp. rewrite !is_label_rename by assumption. reflexivity. Qed.
    Lemma either_rename a b : In a L -> In b L ->
      vcount ss' u' (fun g p => is_label g (f a) || is_label p (f b)) = vcount ss u (fun g p => is_label g a || is_label p b).
    Proof. intros Ha Hb. apply vcount_srename. intros g p Kg Kp. rewrite !is_label_rename by assumption. reflexivity. Qed.
    Lemma gts_rename a : In a L -> vcount ss' u' (fun g _ => is_label g (f a)) = vcount ss u (fun g _ => is_label g a).
    Proof. intros Ha. apply vcount_srename. intros g p Kg Kp. apply is_label_rename; assumption. Qed.
    Lemma pds_rename a : In a L -> vcount ss' u' (fun _ p => is_label p (f a)) = vcount ss u (fun _ p => is_label p a).
    Proof. intros Ha. apply vcount_srename. intros g p Kg Kp. apply is_label_rename; assumption. Qed.
    Lemma iou_rename a b : In a L -> In b L -> spec_iou ss' u' (f a) (f b) = spec_iou ss u a b.
    Proof. intros Ha Hb. unfold spec_iou. rewrite both_rename, either_rename by assumption. reflexivity. Qed.
    Lemma precision_rename a : In a L -> spec_precision ss' u' (f a) = spec_precision ss u a.
    Proof. intros Ha. unfold spec_precision. rewrite both_rename, pds_rename by assumption. reflexivity. Qed.
    Lemma recall_rename a : In a L -> spec_recall ss' u' (f a) = spec_recall ss u a.
    Proof. intros Ha. unfold spec_recall. rewrite both_rename, gts_rename by assumption. reflexivity. Qed.
    Lemma f1_rename a : In a L -> spec_f1 ss' u' (f a) = spec_f1 ss u a.
    Proof. intros Ha. unfold spec_f1. rewrite both_rename, gts_rename, pds_rename by assumption. reflexivity. Qed.
    Lemma accuracy_rename : spec_accuracy ss' u' = spec_accuracy ss u.
    Proof. unfold spec_accuracy. rewrite (vcount_srename same same same_rename), (vcount_srename (fun _ _ => true) (fun _ _ => true)); reflexivity. Qed.
    Lemma unmatched_pd_rename a : In a L -> spec_unmatched_pd ss' u' (f a) = spec_unmatched_pd ss u a.
    Proof.
      intros Ha. unfold spec_unmatched_pd. rewrite pds_rename by assumption.
      rewrite (vcount_srename (fun g p => same g None && is_label p a)); [reflexivity|]. intros g p Kg Kp. rewrite same_none, is_label_rename by assumption. reflexivity.
    Qed.
    Lemma unmatched_gt_rename a : In a L -> spec_unmatched_gt ss' u' (f a) = spec_unmatched_gt ss u a.
    Proof.
      intros Ha. unfold spec_unmatched_gt. rewrite gts_rename by assumption.
      rewrite (vcount_srename (fun g p => is_label g a && same p None)); [reflexivity|]. intros g p Kg Kp. rewrite same_none, is_label_rename by assumption. reflexivity.
    Qed.

    Lemma lists_rename (q q' : string -> Q) M out out' : incl M L -> (forall l, In l L -> q' (f l) = q l) ->
      lists_of M q out -> lists_of (map f M) q' out' -> renamed_values f out out'.
    Proof.
      intros Hi E H. revert out' Hi. induction H as [|l x M out (A & B) H IH]; intros out' Hi H'; cbn [map] in H'; inversion H' as [|l' y M' o' (A' & B') H'' E1 E2]; subst.
      - constructor.
      - constructor.
        + exists l. split; [exact A|]. split; [exact A'|]. rewrite B, B', (E l (Hi l (or_introl eq_refl))). reflexivity.
        + apply IH; [intros z Hz; apply Hi; right; exact Hz|exact H''].
    Qed.
    Lemma report_rename rep rep' : report_ok ss u L rep -> report_ok ss' u' (map f L) rep' -> renamed_report f rep rep'.
    Proof.
      intros (H1 & H2 & H3 & H4 & H5 & H6 & H7 & H8 & H9) (G1 & G2 & G3 & G4 & G5 & G6 & G7 & G8 & G9).
      split; [rewrite H1, G1, accuracy_rename; reflexivity|].
      split.
      { assert (Hi : incl L L) by (intros x Hx; exact Hx). clear - Hf Hu H2 G2 Hi. revert H2 G2.
        generalize (sr_confusion rep) as o. generalize (sr_confusion rep') as o'.
        assert (X : forall M o o', incl M L -> Forall2 (fun a x => fst x = Some a /\ lists_of L (spec_iou ss u a) (snd x)) M o ->
          Forall2 (fun a x => fst x = Some a /\ lists_of (map f L) (spec_iou ss' u' a) (snd x)) (map f M) o' ->
          Forall2 (fun x y => exists l, fst x = Some l /\ fst y = Some (f l) /\ renamed_values f (snd x) (snd y)) o o').
        { intros M o o' HM H. revert o' HM. induction H as [|l x M o (A & B) H IH]; intros o' HM H'; cbn [map] in H';
            inversion H' as [|l' y M' o2 (A' & B') H'' E1 E2]; subst; [constructor|].
          constructor.
          - exists l. split; [exact A|]. split; [exact A'|]. apply (lists_rename (spec_iou ss u l) (spec_iou ss' u' (f l)) L); auto.
            intros k Hk. apply iou_rename; [apply HM; left; reflexivity|exact Hk].
          - apply IH; [intros z Hz; apply HM; right; exact Hz|exact H'']. }
        intros o' o. apply X. exact Hi. }
      assert (Hi : incl L L) by (intros x Hx; exact Hx).
      split; [exact (lists_rename _ _ L _ _ Hi unmatched_pd_rename H3 G3)|]. split; [exact (lists_rename _ _ L _ _ Hi unmatched_gt_rename H4 G4)|].
      split.
      { destruct (sr_miou rep) as [a|], (sr_miou rep') as [b|]; try exact I.
        - destruct H5 as [_ ->], G5 as [_ ->]. rewrite map_map. rewrite (map_ext_in (fun l => spec_iou ss' u' (f l) (f l)) (fun l => spec_iou ss u l l)); [reflexivity|].
          intros l Hl. apply iou_rename; exact Hl.
        - destruct H5 as [H5 _]. apply H5. destruct L; [reflexivity|discriminate].
        - destruct G5 as [G5 _]. apply G5. rewrite H5. reflexivity. }
      split; [exact (lists_rename _ _ L _ _ Hi precision_rename H6 G6)|]. split; [exact (lists_rename _ _ L _ _ Hi recall_rename H7 G7)|].
      split; [exact (lists_rename _ _ L _ _ Hi f1_rename H8 G8)|].
      exact (lists_rename (fun l => spec_iou ss u l l) _ L _ _ Hi (fun l Hl => iou_rename l l Hl Hl) H9 G9).
    Qed.
  End View.

  Theorem renamed_seg v v' e e' ed ed' sel sel' : Forall clean ss -> countable ss -> renamed_sview h f ss v v' ->
    obtained ss v e -> obtained ss' v' e' -> datum_expr ss ed sel -> datum_expr ss' ed' sel' -> (forall s, In s ss -> sel' (srename h f s) = sel s) ->
    exists r r', seg_compute e ed = Some r /\ seg_compute e' ed' = Some r' /\ renamed_report f r r'.
  Proof.
    intros Hc Hn Hv He He' Hd Hd' Hs.
    destruct (compute_correct ss v e ed sel He Hc Hn Hd) as (r & E & R).
    destruct (compute_correct ss' v' e' ed' sel' He' (clean_srename Hc) (countable_srename Hn) Hd') as (r' & E' & R').
    exists r, r'. split; [exact E|]. split; [exact E'|]. rewrite labels_srename in R'.
    apply (report_rename (with_datums v sel) (with_datums v' sel')); [|exact R|exact R'].
    intros s Hin. destruct (Hv s Hin) as (A & B & C). split; [cbn; rewrite A, (Hs s Hin); reflexivity|]. split; [exact B|exact C].
  Qed.
  Theorem renamed_seg_info v v' e e' w w' ed eg ep ed' eg' ep' : Forall clean ss -> countable ss -> renamed_sview h f ss v v' -> renamed_sview h f ss w w' ->
    obtained ss v e -> obtained ss' v' e' ->
    datum_expr ss ed (v_datum w) -> gt_expr ss eg (v_gt w) -> pd_expr ss ep (v_pd w) ->
    datum_expr ss' ed' (v_datum w') -> gt_expr ss' eg' (v_gt w') -> pd_expr ss' ep' (v_pd w') ->
    same_summary (seg_info e ed eg ep) (seg_info e' ed' eg' ep').
  Proof.
    intros Hc Hn Hv Hw He He' H1 H2 H3 G1 G2 G3.
    destruct (info_correct ss v w e ed eg ep He Hc Hn H1 H2 H3) as (A1 & A2 & A3 & A4 & A5).
    destruct (info_correct ss' v' w' e' ed' eg' ep' He' (clean_srename Hc) (countable_srename Hn) G1 G2 G3) as (B1 & B2 & B3 & B4 & B5).
    assert (E : filter (fun s => v_datum v' s && v_datum w' s) ss' = map (srename h f) (filter (fun s => v_datum v s && v_datum w s) ss)).
    { apply filter_map_on. intros s Hs. rewrite (proj1 (Hv s Hs)), (proj1 (Hw s Hs)). reflexivity. }
    rewrite E in *. unfold same_summary. rewrite A1, A2, A3, A4, A5, B1, B2, B3, B4, B5.
    rewrite labels_srename, !map_length, total_srename.
    split; [reflexivity|]. split; [reflexivity|]. split; [reflexivity|].
    split; f_equal; symmetry; apply npix_srename; try (intros s Hs; apply filter_In in Hs; tauto);
      intros s p Hs; apply filter_In in Hs; destruct Hs as [Hs _].
    - unfold vgt, gt_at. cbn [srename sg_gts]. rewrite label_at_rename. destruct (label_at (sg_gts s) p) as [l|] eqn:El; [|reflexivity].
      destruct (label_at_in _ _ _ El) as (b & Hb & <-). cbn [option_map kept]. rewrite (proj1 (proj2 (Hv s Hs)) b Hb).
      destruct (v_gt v s (bm_label b)); [|reflexivity]. cbn [on_label]. apply (proj1 (proj2 (Hw s Hs)) b Hb).
    - unfold vpd, pd_at. cbn [srename sg_pds]. rewrite label_at_rename. destruct (label_at (sg_pds s) p) as [l|] eqn:El; [|reflexivity].
      destruct (label_at_in _ _ _ El) as (b & Hb & <-). cbn [option_map kept]. rewrite (proj2 (proj2 (Hv s Hs)) b Hb).
      destruct (v_pd v s (bm_label b)); [|reflexivity]. cbn [on_label]. apply (proj2 (proj2 (Hw s Hs)) b Hb).
  Qed.
End Data.
