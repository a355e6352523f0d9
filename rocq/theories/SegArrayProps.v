(* C134: the arrays of segmentation; C133 for segmentation with arrays. *)
From Verif Require Import Prelude Counting CacheModel CacheSpec ClsModel ClsSpec FlowModel DetArrayModel SegModel SegSpec SegProofs SegFlowProofs SegMetricProofs SegDemo SegValidProofs SegLoadSpec SegLoadProofs SegLoadProps SegArrayModel SegArrayProofs SegArrayMain SegProps.
From Coq Require Import QArith String Lia.
From Coq Require Import List.
Local Open Scope string_scope.
Local Open Scope nat_scope.
Local Open Scope list_scope.

(* SPEC: a Segmentation as the constructor returns it, from numpy masks *)
Definition constructed (s : segmentation) : Prop := exists uid gts pds shape m,
  Forall array_ok gts /\ Forall array_ok pds /\ make_segmentation uid gts pds shape m = Some s.
Lemma constructed_sized s : constructed s -> sized s.
Proof.
  intros (uid & gts & pds & shape & m & Hg & Hp & H).
  destruct (make_spec uid gts pds shape m s Hg Hp H) as (x & y & _ & Hx & Hy & _ & Es & _ & _ & Vg & Vp & Bg & Bp).
  assert (A : forall bs out, Forall (bits_ok (Z.to_nat (x * y))) bs -> validate_bitmasks shape bs = Some out ->
            forall b, In b out -> Z.of_nat (List.length (bm_bits b)) = sg_size s).
  { intros bs out B V b Hb. pose proof (proj1 (validate_spec _ _ _ _ B V)) as F. rewrite Es. assert (P : (0 < x * y)%Z) by (apply Z.mul_pos_pos; assumption).
    clear V. revert b Hb. induction F as [|c c' bs' out' Hc F IH]; intros b Hb; [destruct Hb|]. inversion B; subst. destruct Hb as [<-|Hb]; [|now apply IH].
    destruct Hc as (_ & _ & _ & ->). unfold bits_ok in *. lia. }
  split; [rewrite Es; apply Z.mul_pos_pos; assumption|]. intros b [Hb|Hb]; [apply (A gts (sg_gts s))|apply (A pds (sg_pds s))]; assumption.
Qed.

(* adding segmentations never leaves the arrays, also with overlapping masks and
   repeated labels, and stores what the function-based model stores *)
Theorem C134_adding : forall l ss, Forall constructed ss -> np_seg_add_data l ss = AOk (seg_add_data l ss).
Proof. intros l ss H. apply add_data_arr. eapply Forall_impl; [|exact H]. exact constructed_sized. Qed.
Print Assumptions C134_adding.
Example C134_adding_example : Forall constructed [img1] /\ exists l, np_seg_add_data sloader_init [img1] = AOk l /\ sl_labels l = ["cat"; "dog"].
Proof.
  split; [|eexists; split; vm_compute; reflexivity]. constructor; [|constructor].
  exists (sg_uid img1), (sg_gts img1), (sg_pds img1), (sg_shape img1), (sg_meta img1).
  split; [|split; [|vm_compute; reflexivity]]; repeat constructor; vm_compute; discriminate.
Qed.

(* the metrics of every evaluator: no access fails and the report is the set-theoretic one *)
Theorem C134_metrics : forall ss v e ed sel, obtained ss v e -> Forall clean ss -> countable ss -> datum_expr ss ed sel ->
  exists rep, np_seg_compute e ed = AOk rep /\ report_ok ss (with_datums v sel) (seg_labels ss) rep.
Proof.
  intros ss v e ed sel Ho Hc Hn He. destruct (C39_metrics ss v e ed sel Ho Hc Hn He) as (rep & H & R). exists rep. split; [|exact R].
  rewrite seg_compute_arr; [now rewrite H|]. intros kv Hk.
  destruct (obtained_holds ss v e Ho Hc) as (_ & _ & L). rewrite L in Hk. destruct kv as [k x]. apply in_combine_l in Hk. apply in_map_iff in Hk. destruct Hk as (i & <- & _). simpl. lia.
Qed.
Print Assumptions C134_metrics.
Example C134_metrics_example : obtained sdemo all_view sdemo_file /\ Forall clean sdemo /\ countable sdemo /\ datum_expr sdemo None (fun _ => true) /\
  exists rep, np_seg_compute sdemo_file None = AOk rep /\ sr_miou rep = Some (10 # 36)%Q.
Proof.
  split; [exact sdemo_file_ok|]. split; [exact sdemo_clean|]. split; [vm_compute; reflexivity|]. split; [apply none_datum|].
  eexists. split; vm_compute; reflexivity.
Qed.

(* whatever the label map with keys >= 0 is: the arrays succeed exactly when the
   function-based model does, with the same report *)
Theorem C134_any_labels : forall e ed, (forall k l, In (k, l) (se_labels e) -> (0 <= k)%Z) ->
  forall rep, np_seg_compute e ed = AOk rep <-> seg_compute e ed = Some rep.
Proof.
  intros e ed H rep. rewrite seg_compute_arr by (intros [k l] Hk; exact (H k l Hk)). destruct (seg_compute e ed); simpl; split; intros E; try discriminate; injection E as ->; reflexivity.
Qed.
Print Assumptions C134_any_labels.
(* a label map with a gap: both fail *)
Example C134_any_labels_example : let e := MkSE (se_tables sdemo_file) [(0%Z, Some "cat"); (2%Z, Some "fox")] in
  (forall k l, In (k, l) (se_labels e) -> (0 <= k)%Z) /\ np_seg_compute e None = ARaise OutOfBounds /\ seg_compute e None = None.
Proof. split; [|split; vm_compute; reflexivity]. simpl. intros k l [E|[E|[]]]; injection E as <- <-; lia. Qed.

(* a filtered cache loaded without its labels *)
Theorem C133_seg_exact : forall ss v w e e' bs rpf ed eg ep d, obtained ss v e -> Forall clean ss -> countable ss ->
  datum_expr ss ed (v_datum w) -> gt_expr ss eg (v_gt w) -> pd_expr ss ep (v_pd w) ->
  seg_filter_file bs rpf e ed eg ep = Done e' -> Permutation d (seg_filter_dir bs rpf e ed eg ep) ->
  forall ed' sel, datum_expr ss ed' sel ->
  ((exists rep, np_seg_compute (seg_load d None) ed' = AOk rep) <-> (exists m, first_labels ss (and_view v w) m)).
Proof.
  intros ss v w e e' bs rpf ed eg ep d Ho Hc Hn Hd Hg Hp Hf Hdir ed' sel He.
  rewrite seg_compute_arr.
  - split.
    + intros (rep & H). destruct (seg_compute (seg_load d None) ed') as [r|] eqn:E; [|discriminate].
      exact (load_needs ss v w e e' bs rpf ed eg ep d Ho Hc Hd Hg Hp Hf Hdir ed' r E).
    + intros (m & F). destruct (load_works ss v w e e' bs rpf ed eg ep d Ho Hc Hd Hg Hp Hf Hdir m ed' sel Hn He F) as (rep & H & _). exists rep. now rewrite H.
  - intros kv Hk. rewrite (loaded_eq e e' bs rpf ed eg ep d Hf Hdir) in Hk. cbn [se_labels] in Hk. apply (in_map fst) in Hk.
    apply (left_keys ss (and_view v w) (se_tables e') Hc (holds_u ss v w e e' bs rpf ed eg ep Ho Hc Hd Hg Hp Hf)) in Hk.
    destruct Hk as (i & l & -> & _). lia.
Qed.
Print Assumptions C133_seg_exact.
(* full claim: such a cache can always be evaluated; not when only a later label is kept *)
Theorem C133_seg_loads_refuted : exists eg ep e',
  obtained sdemo all_view sdemo_file /\ gt_expr sdemo eg (fun _ l => String.eqb l "dog") /\ pd_expr sdemo ep (fun _ l => String.eqb l "dog") /\
  seg_filter_file 4 4 sdemo_file None eg ep = Done e' /\
  np_seg_compute (seg_load (seg_filter_dir 4 4 sdemo_file None eg ep) None) None = ARaise OutOfBounds.
Proof.
  exists (on_gt (fun l => String.eqb l "dog")), (on_pd (fun l => String.eqb l "dog")). eexists.
  split; [exact sdemo_file_ok|]. split; [apply label_gt|]. split; [apply label_pd|]. split; vm_compute; reflexivity.
Qed.
Print Assumptions C133_seg_loads_refuted.
