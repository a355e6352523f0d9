(* Object detection under renaming of labels: the confusion matrix with its examples and the
   pages of examples. *)
From Verif Require Import Prelude Counting PageSpec CacheModel CacheSpec SortProofs FlowModel ClsModel ClsLabelProofs ClsRenameSpec ClsRenameProofs
  DetModel DetExModel DetSpec DetMain DetFlowModel DetReportModel DetEnd DetMore
  DetFilterSpec DetTurnSpec ClsCellModel ClsCellSpec DetCellModel DetCellSpec DetCellProofs DetRenameSpec DetRenameProofs.
From Coq Require Import String Lia.
Local Open Scope nat_scope.
Local Open Scope list_scope.
Local Notation length := List.length (only parsing).
Local Notation concat := List.concat (only parsing).

Definition na (k f : string -> string) (x : nat * annotation) : nat * annotation := (fst x, arename k f (snd x)).
Lemma numbered_re k f l : numbered (map (arename k f) l) = map (na k f) (numbered l).
Proof. apply numbered_map'. Qed.
Lemma combine_map_l {A B C} (q : A -> C) (l : list A) (m : list B) : combine (map q l) m = map (fun x => (q (fst x), snd x)) (combine l m).
Proof. revert m. induction l as [|a l IH]; intros [|b m]; cbn; try reflexivity. f_equal. apply IH. Qed.
Lemma flat_map_map_on {A B C D} (q : A -> B) (z : C -> D) (P : B -> list D) (Q : A -> list C) l :
  (forall x, In x l -> P (q x) = map z (Q x)) -> flat_map P (map q l) = map z (flat_map Q l).
Proof. induction l as [|a l IH]; intros H; [reflexivity|]. cbn. rewrite map_app, H by (left; reflexivity). f_equal. apply IH. intros x Hx. apply H. right. exact Hx. Qed.

(* ------------------------------------------------------------------ *)
(** * One image *)

Section Image.
  Variables (h k f : string -> string) (L : list string) (d : detection).
  Hypothesis Hf : names_apart f L.
  Hypothesis Hg : forall a l, In a (t_gts d) -> In l (a_labels a) -> In l L.
  Hypothesis Hp : forall a l, In a (t_pds d) -> In l (a_labels a) -> In l L.
  Local Notation d' := (drename h k f d).
  Variables (eps t s : Z).

  Lemma nth_pds p : nth_error (t_pds d') p = option_map (arename k f) (nth_error (t_pds d) p).
  Proof. apply nth_error_map. Qed.
  Lemma scored_same p : is_scored d' p = is_scored d p.
  Proof. unfold is_scored. rewrite nth_pds. destruct (nth_error (t_pds d) p); reflexivity. Qed.
  Lemma best_same p : best_score d' p = best_score d p.
  Proof. unfold best_score. rewrite nth_pds. destruct (nth_error (t_pds d) p); reflexivity. Qed.
  Lemma candidates_same : candidates eps d' = candidates eps d.
  Proof.
    unfold candidates. cbn [drename t_gts t_pds t_iou]. rewrite !map_length. apply filter_ext. intros x.
    change (MkDet (h (t_uid d)) (map (arename k f) (t_gts d)) (map (arename k f) (t_pds d)) (t_iou d)) with d'. rewrite scored_same. reflexivity.
  Qed.
  Lemma isort_same {A} (leb leb' : A -> A -> bool) l : (forall x y, leb x y = leb' x y) -> isort leb l = isort leb' l.
  Proof.
    intros H. induction l as [|a l IH]; [reflexivity|]. unfold isort in *. cbn [fold_right]. rewrite IH. match goal with |- insert leb a ?m = _ => generalize m end. intros m.
    induction m as [|b m IHm]; [reflexivity|]. cbn [insert]. rewrite H, IHm. reflexivity.
  Qed.
  Lemma matching_same p g : matching eps d' p g = matching eps d p g.
  Proof.
    unfold matching, matched_pairs. rewrite candidates_same. rewrite (isort_same _ (turn_leb d)); [reflexivity|].
    intros x y. unfold turn_leb, turn. rewrite !best_same. reflexivity.
  Qed.
  Lemma scored_labels_re a : scored_labels (arename k f a) = map (fun ls => (f (fst ls), snd ls)) (scored_labels a).
  Proof. apply combine_map_l. Qed.
  Lemma gt_here ga : In ga (numbered (t_gts d)) -> forall l, In l (a_labels (snd ga)) -> In l L.
  Proof. destruct ga as [i a]. intros H l. apply Hg. unfold numbered in H. apply in_combine_r in H. exact H. Qed.
  Lemma pd_here pa : In pa (numbered (t_pds d)) -> forall ls, In ls (scored_labels (snd pa)) -> In (fst ls) L.
  Proof.
    destruct pa as [i a]. intros H (l, x) Hl. unfold numbered in H. apply in_combine_r in H. apply (Hp a); [exact H|].
    unfold scored_labels in Hl. apply in_combine_l in Hl. exact Hl.
  Qed.
  Lemma has_label_na l ga : In l L -> In ga (numbered (t_gts d)) -> has_label (f l) (snd (na k f ga)) = has_label l (snd ga).
  Proof.
    intros Hl H. cbn [na snd]. unfold has_label, arename. cbn [a_labels]. apply existsb_map_on. intros x Hx.
    apply (apart_eqb f L); [exact Hf|exact Hl|apply (gt_here ga H x Hx)].
  Qed.
  Lemma matched_by_na ok ok' ga pa : In pa (numbered (t_pds d)) -> (forall l, In l L -> ok' (f l) = ok l) ->
    matched_by eps t s d' ok' (na k f ga) (na k f pa) = matched_by eps t s d ok ga pa.
  Proof.
    intros H Ho. unfold matched_by. cbn [na fst snd]. rewrite matching_same, scored_labels_re. f_equal. apply existsb_map_on.
    intros ls Hl. cbn [fst snd]. rewrite Ho by (apply (pd_here pa H ls Hl)). reflexivity.
  Qed.
  Lemma gt_matched_na ga : gt_matched eps t s d' (na k f ga) = gt_matched eps t s d ga.
  Proof. unfold gt_matched. cbn [drename t_pds]. rewrite numbered_re. apply existsb_map_on. intros pa H. apply (matched_by_na any_label any_label ga pa H). reflexivity. Qed.
  Lemma pd_matched_na pa : In pa (numbered (t_pds d)) -> pd_matched eps t s d' (na k f pa) = pd_matched eps t s d pa.
  Proof. intros H. unfold pd_matched. cbn [drename t_gts]. rewrite numbered_re. apply existsb_map_on. intros ga _. apply (matched_by_na any_label any_label ga pa H). reflexivity. Qed.
  Definition nb (y : annotation * annotation) := (arename k f (fst y), arename k f (snd y)).
  Lemma cell_pairs_na g p : In g L -> In p L -> cell_pairs eps t s d' (f g) (f p) = map nb (cell_pairs eps t s d g p).
  Proof.
    intros Ig Ip. unfold cell_pairs. cbn [drename t_gts t_pds]. rewrite !numbered_re. apply flat_map_map_on. intros ga Hga. apply flat_map_map_on. intros pa Hpa.
    change (MkDet (h (t_uid d)) (map (arename k f) (t_gts d)) (map (arename k f) (t_pds d)) (t_iou d)) with d'.
    rewrite (has_label_na g ga Ig Hga), (matched_by_na (String.eqb p) (String.eqb (f p)) ga pa Hpa) by (intros l Hl; apply (apart_eqb f L); assumption).
    destruct (has_label g (snd ga) && matched_by eps t s d (String.eqb p) ga pa); reflexivity.
  Qed.
  Lemma lone_gts_na g : In g L -> lone_gts eps t s d' (f g) = map (arename k f) (lone_gts eps t s d g).
  Proof.
    intros Ig. unfold lone_gts. cbn [drename t_gts]. rewrite numbered_re. rewrite (filter_map_on (na k f) _ (fun ga => has_label g (snd ga) && negb (gt_matched eps t s d ga))).
    - rewrite !map_map. reflexivity.
    - intros ga H. rewrite (has_label_na g ga Ig H). f_equal. f_equal. apply (gt_matched_na ga).
  Qed.
  Lemma lone_pds_na p : In p L -> lone_pds eps t s d' (f p) = map (arename k f) (lone_pds eps t s d p).
  Proof.
    intros Ip. unfold lone_pds. cbn [drename t_pds]. rewrite numbered_re.
    rewrite (filter_map_on (na k f) _ (fun pa => existsb (fun ls => String.eqb p (fst ls) && passes eps s (snd ls)) (scored_labels (snd pa)) && negb (pd_matched eps t s d pa))).
    - rewrite !map_map. reflexivity.
    - intros pa H. f_equal; [|f_equal; apply (pd_matched_na pa H)]. cbn [na snd]. rewrite scored_labels_re. apply existsb_map_on. intros ls Hl. cbn [fst snd].
      rewrite (apart_eqb f L) by (assumption || apply (pd_here pa H ls Hl)). reflexivity.
  Qed.
  Lemma right_pairs_na : right_pairs eps t s d' = map nb (right_pairs eps t s d).
  Proof.
    unfold right_pairs. cbn [drename t_gts t_pds]. rewrite !numbered_re. apply flat_map_map_on. intros ga Hga. apply flat_map_map_on. intros pa Hpa.
    change (MkDet (h (t_uid d)) (map (arename k f) (t_gts d)) (map (arename k f) (t_pds d)) (t_iou d)) with d'.
    rewrite (matched_by_na (fun l => has_label l (snd ga)) (fun l => has_label l (snd (na k f ga))) ga pa Hpa) by (intros l Hl; apply (has_label_na l ga Hl Hga)).
    destruct (matched_by eps t s d (fun l => has_label l (snd ga)) ga pa); reflexivity.
  Qed.
  Lemma wrong_label_na pa ls : In pa (numbered (t_pds d)) -> In ls (scored_labels (snd pa)) ->
    wrong_label eps t s d' (na k f pa) (f (fst ls), snd ls) = wrong_label eps t s d pa ls.
  Proof.
    intros H Hl. unfold wrong_label. cbn [fst snd]. f_equal; [|f_equal; f_equal; apply (pd_matched_na pa H)].
    cbn [drename t_gts]. rewrite numbered_re. apply existsb_map_on. intros ga Hga. 
    rewrite (has_label_na (fst ls) ga (pd_here pa H ls Hl) Hga). cbn [na fst].
    change (MkDet (h (t_uid d)) (map (arename k f) (t_gts d)) (map (arename k f) (t_pds d)) (t_iou d)) with d'. rewrite matching_same. reflexivity.
  Qed.
  Lemma wrong_pds_na : wrong_pds eps t s d' = map (arename k f) (wrong_pds eps t s d).
  Proof.
    unfold wrong_pds. cbn [drename t_pds]. rewrite numbered_re. apply flat_map_map_on. intros pa H. cbn [na fst snd].
    rewrite scored_labels_re. rewrite (filter_map_on _ _ (wrong_label eps t s d pa)); [rewrite !map_map; reflexivity|].
    intros ls Hl. apply (wrong_label_na pa ls H Hl).
  Qed.
  Lemma missed_gts_na : missed_gts eps t s d' = map (arename k f) (missed_gts eps t s d).
  Proof.
    unfold missed_gts. cbn [drename t_gts t_pds]. rewrite !numbered_re.
    rewrite (filter_map_on (na k f) _ (fun ga => existsb (matched_by eps t s d (fun l => negb (has_label l (snd ga))) ga) (numbered (t_pds d)) || negb (gt_matched eps t s d ga))).
    - rewrite !map_map. reflexivity.
    - intros ga H. f_equal; [|f_equal; apply (gt_matched_na ga)]. apply existsb_map_on. intros pa Hpa.
      apply (matched_by_na (fun l => negb (has_label l (snd ga))) _ ga pa Hpa). intros l Hl. f_equal. apply (has_label_na l ga Hl H).
  Qed.
  Lemma shown_same : shown_image d' = shown_image d.
  Proof.
    unfold shown_image. cbn [drename t_gts t_pds]. rewrite map_length. f_equal. apply existsb_map_on. intros a _. rewrite scored_labels_re, map_length. reflexivity.
  Qed.
End Image.
Lemma image_examples_same h k f L d eps ious scores : names_apart f L ->
  (forall a l, In a (t_gts d) -> In l (a_labels a) -> In l L) -> (forall a l, In a (t_pds d) -> In l (a_labels a) -> In l L) ->
  image_examples eps ious scores (drename h k f d) = map (rename_dexample h k) (image_examples eps ious scores d).
Proof.
  intros Hf Hg Hp. unfold image_examples. rewrite !flat_map_concat_map, concat_map, map_map. f_equal. apply map_ext. intros t. rewrite map_map. apply map_ext. intros s.
  cbn [rename_dexample option_map dx_tp dx_fp dx_fn].
  rewrite (right_pairs_na h k f L d Hf Hg Hp), (wrong_pds_na h k f L d Hf Hg Hp), (missed_gts_na h k f L d Hf Hg Hp), !map_map. reflexivity.
Qed.

(* ------------------------------------------------------------------ *)
(** * The selected part of an image *)

Section Pruned.
  Variables (h k f : string -> string) (ds : list detection) (w w' : dview) (d : detection).
  Hypothesis Hw : renamed_dview h k f ds w w'.
  Hypothesis Hd : In d ds.
  Lemma kept_gts_na : kept_gts w' (drename h k f d) = map (na k f) (kept_gts w d).
  Proof.
    unfold kept_gts. cbn [drename t_gts]. rewrite numbered_re. apply filter_map_on. intros (g, a) H. cbn [na fst].
    change (MkDet (h (t_uid d)) (map (arename k f) (t_gts d)) (map (arename k f) (t_pds d)) (t_iou d)) with (drename h k f d).
    apply (proj1 (Hw d Hd)). apply numbered_In in H. apply nth_error_Some. congruence.
  Qed.
  Lemma kept_pds_na : kept_pds w' (drename h k f d) = map (na k f) (kept_pds w d).
  Proof.
    unfold kept_pds. cbn [drename t_pds]. rewrite numbered_re, map_map.
    change (MkDet (h (t_uid d)) (map (arename k f) (t_gts d)) (map (arename k f) (t_pds d)) (t_iou d)) with (drename h k f d).
    assert (E : map (fun x => (fst (na k f x), kept_labels w' (drename h k f d) (fst (na k f x)) (snd (na k f x)))) (numbered (t_pds d))
      = map (na k f) (map (fun pa => (fst pa, kept_labels w d (fst pa) (snd pa))) (numbered (t_pds d)))).
    { rewrite map_map. apply map_ext_in. intros (p, a) H. apply numbered_In in H. cbn [na fst snd]. f_equal. unfold kept_labels, arename. cbn [a_uid a_labels a_scores].
      rewrite combine_map_l. rewrite (filter_map_on _ _ (fun ls => v_pd w d p (fst ls))); [unfold na, arename; cbn [fst snd a_uid a_labels a_scores]; rewrite !map_map; reflexivity|].
      intros (l, x) Hl. cbn [fst]. apply (proj2 (Hw d Hd) p a l H). apply in_combine_l in Hl. exact Hl. }
    rewrite E. apply filter_map_on. intros (p, a) _. cbn [na snd arename a_labels]. rewrite map_length. reflexivity.
  Qed.
  Lemma pruned_na : pruned w' (drename h k f d) = drename h k f (pruned w d).
  Proof.
    unfold pruned. rewrite kept_gts_na, kept_pds_na. unfold drename. cbn [t_uid t_gts t_pds t_iou]. rewrite !map_map. reflexivity.
  Qed.
  Lemma pruned_gt a l : In a (t_gts (pruned w d)) -> In l (a_labels a) -> exists b, In b (t_gts d) /\ In l (a_labels b).
  Proof.
    intros Ha Hl. cbn [pruned t_gts] in Ha. apply in_map_iff in Ha. destruct Ha as ((g & b) & <- & H). unfold kept_gts in H. apply filter_In in H.
    destruct H as [H _]. apply numbered_In in H. apply nth_error_In in H. eauto.
  Qed.
  Lemma pruned_pd a l : In a (t_pds (pruned w d)) -> In l (a_labels a) -> exists b, In b (t_pds d) /\ In l (a_labels b).
  Proof.
    intros Ha Hl. cbn [pruned t_pds] in Ha. apply in_map_iff in Ha. destruct Ha as ((p & b) & <- & H). unfold kept_pds in H. apply filter_In in H.
    destruct H as [H _]. apply in_map_iff in H. destruct H as ((q & c) & E & H). injection E as <- <-. cbn [fst snd kept_labels a_labels] in Hl.
    apply numbered_In in H. apply nth_error_In in H. exists c. split; [exact H|]. apply in_map_iff in Hl. destruct Hl as ((l0 & x) & <- & Hl).
    apply filter_In in Hl. destruct Hl as [Hl _]. apply in_combine_l in Hl. exact Hl.
  Qed.
End Pruned.

(* ------------------------------------------------------------------ *)
(** * The reports *)

Lemma few_annotations_re h k f ds : few_annotations ds -> few_annotations (map (drename h k f) ds).
Proof.
  intros (A & B & C). unfold few_annotations. rewrite map_length.
  assert (X : forall n, gts_before (map (drename h k f) ds) n = gts_before ds n).
  { intros n. unfold gts_before. f_equal. rewrite firstn_map, map_map. apply map_ext. intros d. cbn. apply map_length. }
  assert (Y : forall n, pds_before (map (drename h k f) ds) n = pds_before ds n).
  { intros n. unfold pds_before. f_equal. rewrite firstn_map, map_map. apply map_ext. intros d. cbn. apply map_length. }
  rewrite X, Y. auto.
Qed.
Section Reports.
  Variables (eps unit : Z) (h k f : string -> string) (ds : list detection).
  Local Notation ds' := (map (drename h k f) ds).
  Hypothesis Hu : (0 <= unit)%Z.
  Hypothesis Hin : det_input unit ds.
  Hypothesis Hfew : few_det_labels ds.
  Hypothesis Hann : few_annotations ds.
  Hypothesis Hdis : Forall distinct_pd_labels ds.
  Hypothesis Hf : names_apart f (det_labels ds).
  Variables (L1 : list string) (w : dview) (e : deval) (datums : drow -> bool) (sel : detection -> bool).
  Variables (L2 : list string) (w' : dview) (e' : deval) (datums' : drow -> bool) (sel' : detection -> bool).
  Hypothesis S1 : shows eps unit ds L1 w e.
  Hypothesis S2 : shows eps unit ds' L2 w' e'.
  Hypothesis D1 : det_selects ds datums sel.
  Hypothesis D2 : det_selects ds' datums' sel'.
  Hypothesis Hw : renamed_dview h k f ds w w'.
  Hypothesis Hsel : forall d, In d ds -> sel' (drename h k f d) = sel d.
  Local Notation u := (by_selection w sel).
  Local Notation u' := (by_selection w' sel').
  Lemma sel_re : renamed_dview h k f ds u u'.
  Proof. exact (selection_rename h k f ds w sel w' sel' Hw Hsel). Qed.
  Lemma in_gt d a l : In d ds -> In a (t_gts (pruned u d)) -> In l (a_labels a) -> In l (det_labels ds).
  Proof. intros Hd Ha Hl. destruct (pruned_gt u d a l Ha Hl) as (b & Hb & H). apply (gt_in ds d b l Hd Hb H). Qed.
  Lemma in_pd d a l : In d ds -> In a (t_pds (pruned u d)) -> In l (a_labels a) -> In l (det_labels ds).
  Proof. intros Hd Ha Hl. destruct (pruned_pd u d a l Ha Hl) as (b & Hb & H). apply (pd_in ds d b l Hd Hb H). Qed.
  Lemma pruned_all : map (pruned u') ds' = map (drename h k f) (map (pruned u) ds).
  Proof. rewrite !map_map. apply map_ext_in. intros d Hd. apply (pruned_na h k f ds u u' d sel_re Hd). Qed.

  Lemma filter_map_ext_on (X : list detection) : filter shown_image (map (drename h k f) X) = map (drename h k f) (filter shown_image X).
  Proof. apply filter_map_on. intros d _. apply shown_same. Qed.
  Lemma page_of_map {A B} (q : A -> B) limit offset l : page_of limit offset (map q l) = map q (page_of limit offset l).
  Proof. unfold page_of. destruct limit as [[|n]|]; rewrite ?skipn_map, ?firstn_map; reflexivity. Qed.
  Theorem renamed_examples ious scores limit offset :
    det_examples eps ious scores datums' limit offset e'
    = option_map (map (rename_dexample h k)) (det_examples eps ious scores datums limit offset e).
  Proof.
    destruct ious as [|t0 ious]; [reflexivity|]. destruct scores as [|s0 scores]; [reflexivity|].
    rewrite (det_examples_meaning eps unit ds L1 w e Hu Hin Hfew Hann Hdis S1 sel datums D1) by discriminate.
    rewrite (det_examples_meaning eps unit ds' L2 w' e' Hu (input_rename unit h k f ds Hin) (few_rename h k f ds Hf Hfew) (few_annotations_re h k f ds Hann)
      (distinct_rename h k f ds Hf Hdis) S2 sel' datums' D2) by discriminate.
    rewrite pruned_all, filter_map_ext_on, page_of_map. cbn [option_map]. f_equal.
    set (X := page_of limit offset _). assert (HX : forall x, In x X -> In x (map (pruned u) ds)).
    { intros x Hx. unfold X, page_of in Hx. assert (Y : In x (filter shown_image (map (pruned u) ds))).
      { destruct limit as [[|n]|]; [|rewrite <- (firstn_skipn offset), in_app_iff, <- (firstn_skipn (S n) (skipn offset _)), in_app_iff; auto|];
        rewrite <- (firstn_skipn offset); apply in_or_app; right; exact Hx. }
      apply filter_In in Y. apply Y. }
    clearbody X. induction X as [|x X IH]; [reflexivity|]. cbn [map flat_map]. rewrite map_app, IH by (intros y Hy; apply HX; right; exact Hy). f_equal.
    destruct (proj1 (in_map_iff _ _ _) (HX x (or_introl eq_refl))) as (d & <- & Hd).
    apply (image_examples_same h k f (det_labels ds)); [exact Hf|intros a l; apply (in_gt d a l Hd)|intros a l; apply (in_pd d a l Hd)].
  Qed.
  Lemma flat_map_re {C D} (P : detection -> list D) (Q : detection -> list C) (z : C -> D) l : (forall d, In d l -> P (drename h k f (pruned u d)) = map z (Q (pruned u d))) ->
    flat_map P (map (drename h k f) (map (pruned u) l)) = map z (flat_map Q (map (pruned u) l)).
  Proof. intros H. induction l as [|d l IH]; [reflexivity|]. cbn [map flat_map]. rewrite map_app, (H d (or_introl eq_refl)). f_equal. apply IH. intros y Hy. apply H. right. exact Hy. Qed.
  Lemma counted_map {C D} (z : C -> D) a b : b = map z a -> counted b = (fst (counted a), map z (snd (counted a))).
  Proof. intros ->. unfold counted. cbn. rewrite map_length. reflexivity. Qed.
  Theorem renamed_matrix t s : exists M M', det_cmx eps t s datums e = Some M /\ det_cmx eps t s datums' e' = Some M' /\
    (forall g p, In g (det_labels ds) -> In p (det_labels ds) -> dcell_at M' (f g) (f p) = option_map (rename_dcell h k) (dcell_at M g p) /\ exists x, dcell_at M g p = Some x) /\
    (forall g, In g (det_labels ds) -> lget (dx_gts M') (Some (f g)) = option_map (rename_dlone h k) (lget (dx_gts M) (Some g)) /\ exists x, lget (dx_gts M) (Some g) = Some x) /\
    (forall p, In p (det_labels ds) -> lget (dx_pds M') (Some (f p)) = option_map (rename_dlone h k) (lget (dx_pds M) (Some p)) /\ exists x, lget (dx_pds M) (Some p) = Some x).
  Proof.
    rewrite (det_cmx_meaning eps unit ds L1 w e Hu Hin Hann Hdis S1 sel datums D1 t s).
    rewrite (det_cmx_meaning eps unit ds' L2 w' e' Hu (input_rename unit h k f ds Hin) (few_annotations_re h k f ds Hann) (distinct_rename h k f ds Hf Hdis) S2 sel' datums' D2 t s).
    rewrite pruned_all. do 2 eexists. split; [reflexivity|]. split; [reflexivity|].
    destruct (e_named eps unit ds L1 w e Hin S1) as (_ & _ & A). destruct (e_named eps unit ds' L2 w' e' (input_rename unit h k f ds Hin) S2) as (_ & _ & B).
    rewrite det_labels_rename in B. unfold dcell_at, dcmx_of. cbn [dx_cells dx_gts dx_pds].
    assert (B' : forall v, In v (det_labels ds) -> In (f v) (names_of e')) by (intros v Hv; apply B; apply in_map; exact Hv).
    assert (A' : forall v, In v (det_labels ds) -> In v (names_of e)) by (intros v Hv; apply A; exact Hv).
    split; [|split].
    - intros g p Ig Ip. rewrite !lget_map. destruct (in_dec _ g (names_of e)) as [_|N]; [|exfalso; apply N, A', Ig].
      destruct (in_dec _ (f g) (names_of e')) as [_|N]; [|exfalso; apply N, B', Ig]. rewrite !lget_map.
      destruct (in_dec _ p (names_of e)) as [_|N]; [|exfalso; apply N, A', Ip].
      destruct (in_dec _ (f p) (names_of e')) as [_|N]; [|exfalso; apply N, B', Ip]. split; [|eauto]. cbn [option_map]. f_equal. apply counted_map.
      apply flat_map_re. intros d Hd. rewrite (cell_pairs_na h k f (det_labels ds) (pruned u d) Hf); [rewrite !map_map; reflexivity|intros a l; apply (in_gt d a l Hd)|intros a l; apply (in_pd d a l Hd)|exact Ig|exact Ip].
    - intros g Ig. rewrite !lget_map. destruct (in_dec _ g (names_of e)) as [_|N]; [|exfalso; apply N, A', Ig].
      destruct (in_dec _ (f g) (names_of e')) as [_|N]; [|exfalso; apply N, B', Ig]. split; [|eauto]. cbn [option_map]. f_equal. apply counted_map.
      apply flat_map_re. intros d Hd. rewrite (lone_gts_na h k f (det_labels ds) (pruned u d) Hf); [rewrite !map_map; reflexivity|intros a l; apply (in_gt d a l Hd)|intros a l; apply (in_pd d a l Hd)|exact Ig].
    - intros g Ig. rewrite !lget_map. destruct (in_dec _ g (names_of e)) as [_|N]; [|exfalso; apply N, A', Ig].
      destruct (in_dec _ (f g) (names_of e')) as [_|N]; [|exfalso; apply N, B', Ig]. split; [|eauto]. cbn [option_map]. f_equal. apply counted_map.
      apply flat_map_re. intros d Hd. rewrite (lone_pds_na h k f (det_labels ds) (pruned u d) Hf); [rewrite !map_map; reflexivity|intros a l; apply (in_pd d a l Hd)|exact Ig].
  Qed.
End Reports.
