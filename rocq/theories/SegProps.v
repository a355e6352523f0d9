(* C37-C40, C56-C62: properties of the segmentation evaluator.
   Vocabulary: SegSpec.v; [obtained ss v e]: [e] is an evaluator got from the data [ss]
   by any sequence of add_data and finalize calls (memory or files, any batch and file
   sizes), by loading, or by filtering; [v] says which datums and labels the filters
   kept.  Model: SegModel.v. *)
From Verif Require Import Prelude Counting CacheModel CacheSpec ClsModel ClsSpec FlowModel DetFlowModel SegModel SegSpec
  SegValidProofs SegStoreProofs SegFlowProofs SegMetricProofs SegInfoProofs SegMore SegDemo.
From Coq Require Import QArith String.
Local Open Scope string_scope.
Local Open Scope nat_scope.
Local Open Scope list_scope.

(* ---------------------------------------------------------------- C37 *)
(* the counts of the rows of a datum add up to the image, each is the number of pixels
   with that pair of labels, and every pair of labels is represented *)
Theorem C37_pixels_of_a_datum : forall ss e k s, obtained ss all_view e -> Forall clean ss -> countable ss -> nth_error ss k = Some s ->
  row_pixels (datum_rows e k) = sg_size s /\
  (forall r, In r (datum_rows e k) ->
     s_count r = Z.of_nat (countb (fun p => same (gt_at s p) (s_gt_label r) && same (pd_at s p) (s_pd_label r)) (pixels s))) /\
  (forall a b, row_pixels (filter (fun r => same (s_gt_label r) a && same (s_pd_label r) b) (datum_rows e k))
     = Z.of_nat (countb (fun p => same (gt_at s p) a && same (pd_at s p) b) (pixels s))).
Proof. exact stored_rows. Qed.
Print Assumptions C37_pixels_of_a_datum.
Example C37_example :
  obtained sdemo all_view sdemo_file /\ Forall clean sdemo /\ countable sdemo /\
  map (fun r => (s_gt_label r, s_pd_label r, s_count r)) (filter (fun r => (0 <? s_count r)%Z) (datum_rows sdemo_file 0))
  = [(Some "cat", Some "cat", 1%Z); (Some "cat", Some "dog", 1%Z); (Some "dog", Some "dog", 1%Z); (None, None, 1%Z)].
Proof. split; [exact sdemo_file_ok|]. split; [exact sdemo_clean|]. split; [reflexivity|]. vm_compute. reflexivity. Qed.
(* two disjoint masks with the same label: pixels are lost *)
Definition twice : segmentation :=
  MkSeg "t" [MkBM "a" [1; 2]%Z [true; false] []; MkBM "a" [1; 2]%Z [false; true] []] [] [1; 2]%Z 2 [].
Theorem C37_repeated_label_refuted : exists s e, sized s /\ disjoint_masks (sg_gts s) /\ disjoint_masks (sg_pds s)
  /\ make_segmentation (sg_uid s) (sg_gts s) (sg_pds s) (sg_shape s) (sg_meta s) = Some s
  /\ obtained [s] all_view e /\ row_pixels (datum_rows e 0) = 1%Z /\ sg_size s = 2%Z.
Proof.
  exists twice, (get_eval (snd (smb_finalize None (smb_run 8 [SAdd [twice]])))).
  split; [split; [reflexivity|cbn; intros b [Hb|Hb]; intuition subst; reflexivity]|].
  split; [apply (disjointb_ok 2); [cbn; intros b Hb; intuition subst; reflexivity|reflexivity]|].
  split; [intros [|i] j b b' p Hi; discriminate|]. split; [reflexivity|].
  split; [apply (ob_memory 8 [SAdd [twice]]); vm_compute; reflexivity|]. split; reflexivity.
Qed.
Print Assumptions C37_repeated_label_refuted.

(* ---------------------------------------------------------------- C38 *)
(* full claim: the masks of a constructed Segmentation are pairwise disjoint.  Proved: a
   mask is disjoint from all later ones if it was disjoint from all earlier ones; refuted
   otherwise.  Masks only lose pixels, and no pixel of the union is lost. *)
Theorem C38_disjoint_partial : forall uid gts pds shape m s, Forall array_ok gts -> Forall array_ok pds ->
  make_segmentation uid gts pds shape m = Some s ->
  forall inp out, (inp = gts /\ out = sg_gts s) \/ (inp = pds /\ out = sg_pds s) ->
  forall i j b b' c', i < j -> nth_error inp i = Some b ->
    (forall k c p, k < i -> nth_error inp k = Some c -> px c p = true -> px b p = false) ->
    nth_error out i = Some b' -> nth_error out j = Some c' ->
    forall p, px b' p = true -> px c' p = true -> False.
Proof.
  intros uid gts pds shape m s Hg Hp H inp out Hio.
  destruct (make_spec uid gts pds shape m s Hg Hp H) as (x & y & _ & _ & _ & _ & _ & _ & _ & Vg & Vp & Bg & Bp).
  destruct Hio as [[-> ->]|[-> ->]]; [apply (validate_spec _ _ _ _ Bg Vg)|apply (validate_spec _ _ _ _ Bp Vp)].
Qed.
Print Assumptions C38_disjoint_partial.
Theorem C38_pixels : forall uid gts pds shape m s, Forall array_ok gts -> Forall array_ok pds ->
  make_segmentation uid gts pds shape m = Some s ->
  forall inp out, (inp = gts /\ out = sg_gts s) \/ (inp = pds /\ out = sg_pds s) ->
  Forall2 same_frame inp out /\
  (forall j b b' p, nth_error inp j = Some b -> nth_error out j = Some b' -> px b' p = true -> px b p = true) /\
  (forall p, (exists b, In b out /\ px b p = true) <-> (exists b, In b inp /\ px b p = true)) /\
  (forall b, nth_error inp 0 = Some b -> nth_error out 0 = Some b).
Proof.
  intros uid gts pds shape m s Hg Hp H inp out Hio.
  destruct (make_spec uid gts pds shape m s Hg Hp H) as (x & y & _ & _ & _ & _ & _ & _ & _ & Vg & Vp & Bg & Bp).
  destruct Hio as [[-> ->]|[-> ->]];
    [destruct (validate_spec _ _ _ _ Bg Vg) as (A & B & C & D & _)|destruct (validate_spec _ _ _ _ Bp Vp) as (A & B & C & D & _)];
    auto.
Qed.
Print Assumptions C38_pixels.
(* construction accepts disjoint masks with distinct labels unchanged, and the result
   satisfies the hypothesis of the other theorems *)
Theorem C38_disjoint_input : forall uid gts pds shape m x y,
  Forall array_ok gts -> Forall array_ok pds -> shape = [x; y] -> (0 < x)%Z -> (0 < y)%Z ->
  Forall (fun b => bm_shape b = shape) gts -> Forall (fun b => bm_shape b = shape) pds ->
  disjoint_masks gts -> disjoint_masks pds -> distinct_labels gts -> distinct_labels pds ->
  make_segmentation uid gts pds shape m = Some (MkSeg uid gts pds shape (x * y) m)
  /\ clean (MkSeg uid gts pds shape (x * y) m).
Proof. exact make_clean. Qed.
Print Assumptions C38_disjoint_input.
Example C38_example :
  let a := MkBM "a" [1; 3]%Z [true; true; false] [] in let b := MkBM "b" [1; 3]%Z [false; true; true] [] in
  Forall array_ok [a; b] /\ Forall array_ok [a] /\
  make_segmentation "x" [a; b] [a] [1; 3]%Z [] = Some (MkSeg "x" [a; MkBM "b" [1; 3]%Z [false; false; true] []] [a] [1; 3]%Z 3 []).
Proof. split; [|split; [|reflexivity]]; repeat constructor; discriminate. Qed.
(* three masks: the third overlaps the second, whose pixels were not recorded because it
   overlapped the first *)
Definition chain : list bitmask :=
  [MkBM "a" [1; 2]%Z [true; false] []; MkBM "b" [1; 2]%Z [true; true] []; MkBM "c" [1; 2]%Z [false; true] []].
Theorem C38_three_masks_refuted : exists uid gts pds shape s, Forall array_ok gts /\ Forall array_ok pds
  /\ distinct_labels gts /\ make_segmentation uid gts pds shape [] = Some s /\ ~ disjoint_masks (sg_gts s).
Proof.
  exists "x", chain, [], [1; 2]%Z. eexists. split; [repeat constructor; discriminate|]. split; [constructor|].
  split; [unfold distinct_labels; cbn; repeat constructor; cbn; intuition discriminate|]. split; [vm_compute; reflexivity|].
  cbn [sg_gts]. intros H. apply (H 1 2 _ _ 1 eq_refl eq_refl); [discriminate|reflexivity|reflexivity].
Qed.
Print Assumptions C38_three_masks_refuted.
(* ... and then a stored count of pixels wraps around *)
Theorem C38_wrapped_count_refuted : exists gts pds s e r, Forall array_ok gts /\ Forall array_ok pds
  /\ make_segmentation "x" gts pds [1; 2]%Z [] = Some s /\ obtained [s] all_view e
  /\ In r (datum_rows e 0) /\ s_count r = (2 ^ 64 - 1)%Z.
Proof.
  pose (ps := [MkBM "d" [1; 2]%Z [false; true] []]).
  pose (s := MkSeg "x" [MkBM "a" [1; 2]%Z [true; false] []; MkBM "b" [1; 2]%Z [false; true] []; MkBM "c" [1; 2]%Z [false; true] []] ps [1; 2]%Z 2 []).
  exists chain, ps, s, (get_eval (snd (smb_finalize None (smb_run 8 [SAdd [s]])))).
  exists (MkS "x" 0 None (-1) (Some "d") 3 (2 ^ 64 - 1) []).
  split; [repeat constructor; discriminate|]. split; [repeat constructor; discriminate|]. split; [reflexivity|].
  split; [apply (ob_memory 8 [SAdd [s]]); vm_compute; reflexivity|]. split; [vm_compute; tauto|reflexivity].
Qed.
Print Assumptions C38_wrapped_count_refuted.

(* ---------------------------------------------------------------- C39 *)
(* [report_ok]: every value of the report is its set-theoretic definition on the pixels,
   one per label in the order of first appearance *)
Theorem C39_metrics : forall ss v e ed sel, obtained ss v e -> Forall clean ss -> countable ss -> datum_expr ss ed sel ->
  exists rep, seg_compute e ed = Some rep /\ report_ok ss (with_datums v sel) (seg_labels ss) rep.
Proof. exact compute_correct. Qed.
Print Assumptions C39_metrics.
Theorem C39_range : forall ss v e ed sel, obtained ss v e -> Forall clean ss -> countable ss -> datum_expr ss ed sel ->
  exists rep, seg_compute e ed = Some rep /\ Forall (fun q => 0 <= q <= 1)%Q (report_values rep).
Proof.
  intros ss v e ed sel Ho Hc Hn He. destruct (compute_correct ss v e ed sel Ho Hc Hn He) as (rep & H1 & H2).
  exists rep. split; [exact H1|]. exact (report_range _ _ _ _ H2).
Qed.
Print Assumptions C39_range.
Example C39_example : obtained sdemo all_view sdemo_mem /\ datum_expr sdemo None (fun _ => true) /\
  option_map (fun r => (sr_accuracy r, sr_f1 r, sr_miou r)) (seg_compute sdemo_mem None)
  = Some (5 # 8, [(Some "cat", 6 # 12); (Some "dog", 4 # 6); (Some "fox", 0)], Some (10 # 36))%Q.
Proof. split; [exact sdemo_mem_ok|]. split; [apply none_datum|]. vm_compute. reflexivity. Qed.
Example C39_example_filtered :
  let sel := on_field "day" (isv "mon") in
  datum_expr sdemo sel (fun s => isv "mon" (meta_get (sg_meta s) "day")) /\
  option_map (fun r => (sr_accuracy r, sr_recall r)) (seg_compute sdemo_file sel)
  = Some (3 # 4, [(Some "cat", 1 # 2); (Some "dog", 1); (Some "fox", 0)])%Q.
Proof. split; [apply field_datum; apply sdemo_day|]. vm_compute. reflexivity. Qed.

(* ---------------------------------------------------------------- C40 *)
(* whatever the expressions, a filter keeps the pixels of each kept datum *)
Theorem C40_pixels_kept : forall e e' bs rpf ed eg ep k,
  (seg_filter_mem bs e ed eg ep = Done e' \/ seg_filter_file bs rpf e ed eg ep = Done e') ->
  row_pixels (datum_rows e' k) = row_pixels (filter (eval_expr ed) (datum_rows e k)).
Proof. exact filter_pixels. Qed.
Print Assumptions C40_pixels_kept.
(* rows are neither added nor removed inside kept datums; a label becomes "no label" or stays *)
Theorem C40_rows : forall e e' bs rpf ed eg ep,
  (seg_filter_mem bs e ed eg ep = Done e' \/ seg_filter_file bs rpf e ed eg ep = Done e') ->
  se_labels e' = se_labels e /\ Forall2 kept_fields (filter (eval_expr ed) (List.concat (se_tables e))) (List.concat (se_tables e')).
Proof. exact filtered_rows. Qed.
Print Assumptions C40_rows.
(* the reports of the filtered evaluator are those of the pixels whose removed labels are
   background *)
Theorem C40_relabelled : forall ss v e bs rpf ed eg ep w e',
  obtained ss v e -> Forall clean ss -> countable ss ->
  datum_expr ss ed (v_datum w) -> gt_expr ss eg (v_gt w) -> pd_expr ss ep (v_pd w) ->
  (seg_filter_mem bs e ed eg ep = Done e' \/ seg_filter_file bs rpf e ed eg ep = Done e') ->
  info_ok ss (and_view v w) all_view (seg_info e' None None None) /\
  exists rep, seg_compute e' None = Some rep /\ report_ok ss (with_datums (and_view v w) (fun _ => true)) (seg_labels ss) rep.
Proof.
  intros ss v e bs rpf ed eg ep w e' Ho Hc Hn Hd Hg Hp H.
  assert (O : obtained ss (and_view v w) e').
  { destruct H as [H|H]; [eapply ob_filter_memory|eapply ob_filter_files]; eassumption. }
  split; [apply info_correct; auto using none_datum, none_gt, none_pd|apply compute_correct; auto using none_datum].
Qed.
Print Assumptions C40_relabelled.
(* a filter raises EmptyCacheError exactly if no datum is left *)
Theorem C40_empty : forall ss v e bs rpf ed eg ep w, obtained ss v e -> Forall clean ss ->
  datum_expr ss ed (v_datum w) -> gt_expr ss eg (v_gt w) -> pd_expr ss ep (v_pd w) ->
  forall o, o = seg_filter_mem bs e ed eg ep \/ o = seg_filter_file bs rpf e ed eg ep ->
    (o = EmptyCache /\ forall s, In s ss -> v_datum v s && v_datum w s = false)
    \/ ((exists e', o = Done e') /\ exists s, In s ss /\ v_datum v s && v_datum w s = true).
Proof. exact filter_empty. Qed.
Print Assumptions C40_empty.
Example C40_example :
  let cat := fun l => String.eqb l "cat" in
  gt_expr sdemo (on_gt cat) (fun _ l => cat l) /\
  exists e', seg_filter_file 2 3 sdemo_file None (on_gt cat) None = Done e' /\
    seg_info e' None None None = MkSI 16 3 2 8 3 5 /\ seg_info sdemo_file None None None = MkSI 16 3 2 8 4 5 /\
    row_pixels (datum_rows e' 0) = 4%Z.
Proof. split; [apply label_gt|]. eexists. split; [vm_compute; reflexivity|]. vm_compute. repeat split. Qed.

(* ---------------------------------------------------------------- C56 *)
(* two evaluators that show the same pixels give the same report *)
Theorem C56_same_report : forall ss v w e1 e2 e1d e2d sel1 sel2,
  obtained ss v e1 -> obtained ss w e2 -> Forall clean ss -> countable ss ->
  datum_expr ss e1d sel1 -> datum_expr ss e2d sel2 ->
  same_view ss (with_datums v sel1) (with_datums w sel2) ->
  seg_compute e1 e1d = seg_compute e2 e2d.
Proof. exact same_report. Qed.
Print Assumptions C56_same_report.
(* in particular: filtering by datums first, or passing the expression to the metric *)
Theorem C56_filter_first : forall ss v e e' bs rpf ed sel, obtained ss v e -> Forall clean ss -> countable ss -> datum_expr ss ed sel ->
  (seg_filter_mem bs e ed None None = Done e' \/ seg_filter_file bs rpf e ed None None = Done e') ->
  seg_compute e' None = seg_compute e ed.
Proof.
  intros ss v e e' bs rpf ed sel Ho Hc Hn He H. pose (w := MkView sel (fun _ _ => true) (fun _ _ => true)).
  assert (O : obtained ss (and_view v w) e').
  { destruct H as [H|H]; [eapply (ob_filter_memory ss v e bs ed None None w)|eapply (ob_filter_files ss v e bs rpf ed None None w)];
      eauto using none_gt, none_pd. }
  apply (same_report ss (and_view v w) v e' e None ed (fun _ => true) sel O Ho Hc Hn (none_datum ss) He).
  intros s _. cbn. split; [rewrite andb_true_r; reflexivity|]. intros l. rewrite !andb_true_r. auto.
Qed.
Print Assumptions C56_filter_first.
Example C56_example : obtained sdemo all_view sdemo_mem /\ obtained sdemo all_view sdemo_file /\
  List.length (se_tables sdemo_mem) = 1 /\ List.length (se_tables sdemo_file) = 2 /\
  seg_compute sdemo_mem None = seg_compute sdemo_file None /\ seg_compute sdemo_mem None <> None.
Proof.
  split; [exact sdemo_mem_ok|]. split; [exact sdemo_file_ok|]. split; [reflexivity|]. split; [reflexivity|].
  split; [reflexivity|]. vm_compute. discriminate.
Qed.

(* ---------------------------------------------------------------- C57 *)
Theorem C57_info : forall ss v w e ed eg ep, obtained ss v e -> Forall clean ss -> countable ss ->
  datum_expr ss ed (v_datum w) -> gt_expr ss eg (v_gt w) -> pd_expr ss ep (v_pd w) ->
  info_ok ss v w (seg_info e ed eg ep).
Proof. exact info_correct. Qed.
Print Assumptions C57_info.
Example C57_example :
  let big := on_field "size" (isv "big") in let a := on_field "model" (isv "a") in
  gt_expr sdemo big (fun s l => isv "big" (own_meta (sg_gts s) (sg_meta s) l "size")) /\
  pd_expr sdemo a (fun s l => isv "a" (own_meta (sg_pds s) (sg_meta s) l "model")) /\
  seg_info sdemo_file None big a = MkSI 16 3 2 8 2 3.
Proof. split; [apply field_gt, sdemo_size_gts|]. split; [apply field_pd, sdemo_model_pds|]. vm_compute. reflexivity. Qed.

(* ---------------------------------------------------------------- C58 *)
Theorem C58_empty : forall bs rpf h o,
  (snd (smb_finalize o (smb_run bs h)) = EmptyCache <-> sadded h = []) /\
  (snd (sfb_finalize o (sfb_run bs rpf h)) = EmptyCache <-> sadded h = []) /\
  (sadded h <> [] -> (exists e, snd (smb_finalize o (smb_run bs h)) = Done e) /\ (exists e, snd (sfb_finalize o (sfb_run bs rpf h)) = Done e)).
Proof. exact finalize_empty. Qed.
Print Assumptions C58_empty.
Theorem C58_again_in_memory : forall bs h h' o, (forall c, In c h' -> exists o, c = SFinal o) ->
  snd (smb_finalize o (smb_run bs (h ++ h'))) = snd (smb_finalize o (smb_run bs h)).
Proof. exact mem_finalize_again. Qed.
Print Assumptions C58_again_in_memory.
Theorem C58_again_in_files : forall bs rpf h h' o, (forall c, In c h' -> exists o, c = SFinal o) ->
  snd (sfb_finalize o (sfb_run bs rpf (h ++ h'))) = snd (sfb_finalize o (sfb_run bs rpf h)).
Proof. exact file_finalize_again. Qed.
Print Assumptions C58_again_in_files.
Example C58_example : sadded sdemo_calls = sdemo /\
  snd (sfb_finalize None (sfb_run 2 5 (sdemo_calls ++ [SFinal None; SFinal (Some [])]))) = Done sdemo_file.
Proof. split; [reflexivity|]. vm_compute. reflexivity. Qed.

(* ---------------------------------------------------------------- C59 *)
(* full claim: a filter on a metadata field selects annotations by their own metadata (or
   their datum's).  Proved when annotations of the other kind do not use the field. *)
Theorem C59_groundtruths_partial : forall ss e bs rpf f P e', obtained ss all_view e -> Forall clean ss -> countable ss ->
  ~ pds_use ss f ->
  (seg_filter_mem bs e None (on_field f P) None = Done e' \/ seg_filter_file bs rpf e None (on_field f P) None = Done e') ->
  si_gt_pixels (seg_info e' None None None)
  = Z.of_nat (npix ss (fun s p => on_label (fun l => P (own_meta (sg_gts s) (sg_meta s) l f)) (gt_at s p))).
Proof.
  intros ss e bs rpf f P e' Ho Hc Hn Hf H.
  pose (w := MkView (fun _ => true) (fun s l => P (own_meta (sg_gts s) (sg_meta s) l f)) (fun _ _ => true)).
  destruct (C40_relabelled ss all_view e bs rpf None (on_field f P) None w e' Ho Hc Hn (none_datum ss) (field_gt ss f P Hf) (none_pd ss) H)
    as [(_ & _ & _ & G & _) _]. rewrite G. f_equal. rewrite npix_filter. apply npix_ext. intros s p _ _. cbn.
  unfold vgt, kept. cbn. destruct (gt_at s p) as [l|]; [|reflexivity]. cbn. destruct (P _); reflexivity.
Qed.
Print Assumptions C59_groundtruths_partial.
Theorem C59_predictions_partial : forall ss e bs rpf f P e', obtained ss all_view e -> Forall clean ss -> countable ss ->
  ~ gts_use ss f ->
  (seg_filter_mem bs e None None (on_field f P) = Done e' \/ seg_filter_file bs rpf e None None (on_field f P) = Done e') ->
  si_pd_pixels (seg_info e' None None None)
  = Z.of_nat (npix ss (fun s p => on_label (fun l => P (own_meta (sg_pds s) (sg_meta s) l f)) (pd_at s p))).
Proof.
  intros ss e bs rpf f P e' Ho Hc Hn Hf H.
  pose (w := MkView (fun _ => true) (fun _ _ => true) (fun s l => P (own_meta (sg_pds s) (sg_meta s) l f))).
  destruct (C40_relabelled ss all_view e bs rpf None None (on_field f P) w e' Ho Hc Hn (none_datum ss) (none_gt ss) (field_pd ss f P Hf) H)
    as [(_ & _ & _ & _ & G) _]. rewrite G. f_equal. rewrite npix_filter. apply npix_ext. intros s p _ _. cbn.
  unfold vpd, kept. cbn. destruct (pd_at s p) as [l|]; [|reflexivity]. cbn. destruct (P _); reflexivity.
Qed.
Print Assumptions C59_predictions_partial.
Example C59_example : ~ pds_use sdemo "size" /\ exists e', seg_filter_file 2 3 sdemo_file None (on_field "size" (isv "small")) None = Done e'
  /\ si_gt_pixels (seg_info e' None None None) = 2%Z.
Proof. split; [exact sdemo_size_gts|]. eexists. split; [vm_compute; reflexivity|]. vm_compute. reflexivity. Qed.
(* a prediction without the field is selected by the ground truth it overlaps *)
Theorem C59_prediction_by_groundtruth_refuted : exists s e e', clean s /\ obtained [s] all_view e /\
  seg_filter_mem 8 e None None (on_field "src" (isv "manual")) = Done e' /\
  (forall l, isv "manual" (own_meta (sg_pds s) (sg_meta s) l "src") = false) /\
  si_pd_pixels (seg_info e' None None None) = 1%Z.
Proof.
  exists both_fields, both_mem. eexists. split; [exact both_clean|]. split; [exact both_mem_ok|]. split; [vm_compute; reflexivity|].
  split; [|vm_compute; reflexivity]. intros l. unfold own_meta, both_fields. cbn [find sg_gts sg_pds sg_meta bm_label]. destruct (String.eqb "dog" l); [reflexivity|].
  destruct (String.eqb "fox" l); reflexivity.
Qed.
Print Assumptions C59_prediction_by_groundtruth_refuted.
(* a ground truth with another value is selected by the prediction it overlaps *)
Theorem C59_groundtruth_by_prediction_refuted : exists s e e', clean s /\ obtained [s] all_view e /\
  seg_filter_mem 8 e None (on_field "src" (isv "auto")) None = Done e' /\
  (forall l, isv "auto" (own_meta (sg_gts s) (sg_meta s) l "src") = false) /\
  si_gt_pixels (seg_info e' None None None) = 2%Z.
Proof.
  exists both_fields, both_mem. eexists. split; [exact both_clean|]. split; [exact both_mem_ok|]. split; [vm_compute; reflexivity|].
  split; [|vm_compute; reflexivity]. intros l. unfold own_meta, both_fields. cbn [find sg_gts sg_pds sg_meta bm_label]. destruct (String.eqb "cat" l); reflexivity.
Qed.
Print Assumptions C59_groundtruth_by_prediction_refuted.

(* ---------------------------------------------------------------- C60 *)
(* full claim: constructing a Segmentation leaves the caller's arrays alone.  Proved for
   pairwise disjoint masks, and for arrays that are not masks of the datum. *)
Theorem C60_disjoint_partial : forall gts pds shape h gs ps, hread h gts gs -> hread h pds ps ->
  Forall array_ok gs -> Forall array_ok ps -> disjoint_masks gs -> disjoint_masks ps ->
  fst (hmake gts pds shape h) = h.
Proof. exact hmake_unchanged. Qed.
Print Assumptions C60_disjoint_partial.
Theorem C60_other_arrays : forall gts pds shape h q, ~ In q (map hm_ref (gts ++ pds)) ->
  nth_error (fst (hmake gts pds shape h)) q = nth_error h q.
Proof. exact hmake_frame. Qed.
Print Assumptions C60_other_arrays.
(* if no two masks share an array, the result is that of [make_segmentation] *)
Theorem C60_unshared : forall gts pds shape h gs ps uid m,
  NoDup (map hm_ref (gts ++ pds)) -> hread h gts gs -> hread h pds ps ->
  match make_segmentation uid gs ps shape m with
  | Some s => snd (hmake gts pds shape h) = true
      /\ hread (fst (hmake gts pds shape h)) gts (sg_gts s) /\ hread (fst (hmake gts pds shape h)) pds (sg_pds s)
  | None => snd (hmake gts pds shape h) = false
  end.
Proof. exact hmake_refines. Qed.
Print Assumptions C60_unshared.
Definition arrays : list harray := [MkArr [1; 2]%Z [true; false]; MkArr [1; 2]%Z [true; true]].
Example C60_example : NoDup (map hm_ref ([MkHM "a" 0 []; MkHM "b" 1 []] ++ [])) /\
  hread arrays [MkHM "a" 0 []; MkHM "b" 1 []] [MkBM "a" [1; 2]%Z [true; false] []; MkBM "b" [1; 2]%Z [true; true] []].
Proof. split; [cbn; repeat constructor; cbn; intuition discriminate|]. repeat constructor. Qed.
(* one array in both lists: an overlap among ground truths removes a predicted pixel *)
Theorem C60_shared_array_refuted : exists gts pds shape h h', hmake gts pds shape h = (h', true) /\
  (exists b, pds = [b] /\ nth_error h (hm_ref b) = Some (MkArr shape [true; true]) /\ nth_error h' (hm_ref b) = Some (MkArr shape [false; true])).
Proof.
  exists [MkHM "a" 0 []; MkHM "b" 1 []], [MkHM "c" 1 []], [1; 2]%Z, arrays. eexists. split; [vm_compute; reflexivity|].
  exists (MkHM "c" 1 []). repeat split.
Qed.
Print Assumptions C60_shared_array_refuted.
(* one array under two labels of the same list: both masks become empty *)
Theorem C60_same_array_twice_refuted : exists gts shape h h', hmake gts [] shape h = (h', true) /\
  (forall b, In b gts -> nth_error h (hm_ref b) = Some (MkArr shape [true; true])) /\
  (forall b, In b gts -> nth_error h' (hm_ref b) = Some (MkArr shape [false; false])).
Proof.
  exists [MkHM "a" 1 []; MkHM "b" 1 []], [1; 2]%Z, arrays. eexists. split; [vm_compute; reflexivity|].
  split; intros b Hb; cbn in Hb; intuition subst; reflexivity.
Qed.
Print Assumptions C60_same_array_twice_refuted.

(* ---------------------------------------------------------------- C61 *)
(* full claim: an evaluator keeps reporting on the data it was made from.  For files:
   proved as long as the loader is only finalized again; refuted if data are added. *)
Theorem C61_finalize_only_partial : forall bs rpf h h' e d, (forall c, In c h' -> exists o, c = SFinal o) ->
  snd (sfb_finalize None (sfb_run bs rpf h)) = Done e ->
  Permutation d (f_dir (sfb_writer (fst (sfb_finalize None (sfb_run bs rpf (h ++ h')))))) ->
  seg_reads e d = e.
Proof.
  intros bs rpf h h' e d H He Hd. rewrite (file_dir_again bs rpf h h' None None H) in Hd.
  destruct (sfb_finalize_spec bs rpf h None) as [A B].
  assert (N : sadded h <> []) by (intros N; rewrite (A N) in He; discriminate).
  destruct (B N) as (T & E & _ & D). rewrite E in He. injection He as <-. unfold seg_reads. rewrite (D d Hd). reflexivity.
Qed.
Print Assumptions C61_finalize_only_partial.
Theorem C61_added_data_refuted : exists bs rpf h ss e, snd (sfb_finalize None (sfb_run bs rpf h)) = Done e /\
  let d := f_dir (sfb_writer (fst (sfb_finalize None (sfb_run bs rpf (h ++ [SFinal None; SAdd ss]))))) in
  seg_compute (seg_reads e d) None <> seg_compute e None /\
  si_pixels (seg_info (seg_reads e d) None None None) = 8%Z /\ si_pixels (seg_info e None None None) = 4%Z.
Proof.
  exists 2, 5, [SAdd [img1]], [img2]. eexists. split; [vm_compute; reflexivity|]. cbv zeta.
  split; [vm_compute; discriminate|]. split; vm_compute; reflexivity.
Qed.
Print Assumptions C61_added_data_refuted.

Example C61_example : exists e, snd (sfb_finalize None (sfb_run 2 5 sdemo_calls)) = Done e /\
  seg_reads e (f_dir (sfb_writer (fst (sfb_finalize None (sfb_run 2 5 (sdemo_calls ++ [SFinal None; SFinal None])))))) = e.
Proof. eexists. split; vm_compute; reflexivity. Qed.

(* ---------------------------------------------------------------- C62 *)
(* full claim: the files of a filtered evaluator can be loaded again.  Proved if the
   labels are passed to load; refuted without them. *)
Theorem C62_with_labels_partial : forall bs rpf e e' ed eg ep d,
  seg_filter_file bs rpf e ed eg ep = Done e' -> Permutation d (seg_filter_dir bs rpf e ed eg ep) ->
  seg_load d (Some (se_labels e')) = e'.
Proof. exact load_filtered. Qed.
Print Assumptions C62_with_labels_partial.
Theorem C62_unfiltered : forall ss bs rpf h e d, sadded h = ss -> Forall clean ss -> countable ss ->
  snd (sfb_finalize None (sfb_run bs rpf h)) = Done e ->
  Permutation d (f_dir (sfb_writer (fst (sfb_finalize None (sfb_run bs rpf h))))) ->
  seg_compute (seg_load d None) None = seg_compute e None.
Proof.
  intros ss bs rpf h e d <- Hc Hn He Hd.
  apply (same_report (sadded h) all_view all_view _ _ None None (fun _ => true) (fun _ => true) (ob_load bs rpf h d e He Hd) (ob_files bs rpf h e He) Hc Hn);
    try apply none_datum. intros s _. split; [reflexivity|]. intros l. split; reflexivity.
Qed.
Print Assumptions C62_unfiltered.
(* the remaining labels are not numbered 0, 1, ...: computing metrics raises KeyError *)
Theorem C62_without_labels_refuted : exists eg ep e', gt_expr sdemo eg (fun _ l => String.eqb l "dog") /\ pd_expr sdemo ep (fun _ l => String.eqb l "dog") /\
  obtained sdemo all_view sdemo_file /\
  seg_filter_file 4 4 sdemo_file None eg ep = Done e' /\ seg_compute e' None <> None /\
  seg_compute (seg_load (seg_filter_dir 4 4 sdemo_file None eg ep) None) None = None.
Proof.
  exists (on_gt (fun l => String.eqb l "dog")), (on_pd (fun l => String.eqb l "dog")). eexists.
  split; [apply label_gt|]. split; [apply label_pd|]. split; [exact sdemo_file_ok|]. split; [vm_compute; reflexivity|].
  split; [vm_compute; discriminate|]. vm_compute. reflexivity.
Qed.
Print Assumptions C62_without_labels_refuted.
Example C62_example : exists e', seg_filter_file 4 4 sdemo_file None (on_gt (fun l => String.eqb l "dog")) None = Done e' /\
  seg_load (rev (seg_filter_dir 4 4 sdemo_file None (on_gt (fun l => String.eqb l "dog")) None)) (Some (se_labels e')) = e' /\
  List.length (se_tables e') = 2.
Proof. eexists. split; [vm_compute; reflexivity|]. split; vm_compute; reflexivity. Qed.
