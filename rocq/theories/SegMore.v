(* Segmentation: stored rows per datum, ranges, independence of storage, repeated
   finalization, filters by arbitrary expressions. *)
From Verif Require Import Prelude Counting CacheModel CacheSpec CacheProofs ClsModel ClsSpec ClsLabelProofs ClsProofs FlowModel FlowProofs DetFlowModel DetFlowProofs Pipeline
  SegModel SegSpec SegPixelProofs SegProofs SegStoreProofs SegLabelProofs SegFlowProofs SegMetricProofs SegInfoProofs.
From Coq Require Import QArith String Lqa.
Local Open Scope nat_scope.
Local Open Scope list_scope.

(* ------------------------------------------------------------------ rows of a datum *)
Lemma filter_all {A} (f : A -> bool) l : (forall x, In x l -> f x = true) -> filter f l = l.
Proof. intros H. induction l as [|x l IH]; [reflexivity|]. cbn. rewrite (H x (or_introl eq_refl)), IH; [reflexivity|]. intros y Hy. apply H. right. exact Hy. Qed.
Lemma filter_none {A} (f : A -> bool) l : (forall x, In x l -> f x = false) -> filter f l = [].
Proof. intros H. induction l as [|x l IH]; [reflexivity|]. cbn. rewrite (H x (or_introl eq_refl)). apply IH. intros y Hy. apply H. right. exact Hy. Qed.

Lemma drows_datum L k s r : In r (drows L k s) -> s_datum r = Z.of_nat k.
Proof.
  unfold drows, seg_rows. intros H. apply in_app_iff in H. destruct H as [H|[<-|[]]]; [|reflexivity].
  apply in_flat_map in H. destruct H as (i & _ & H). apply in_app_iff in H. destruct H as [H|[<-|[<-|[]]]]; [|reflexivity|reflexivity].
  apply in_flat_map in H. destruct H as (j & _ & H). destruct (0 <? _)%Z; [|destruct H]. destruct H as [<-|[]]. reflexivity.
Qed.
Lemma writes_datum ss : forall L k i s, nth_error ss i = Some s ->
  exists L', filter (fun r => (s_datum r =? Z.of_nat (k + i))%Z) (List.concat (writes_from L k ss)) = drows L' (k + i) s
    /\ (NoDup L -> NoDup L') /\ (forall l, In l (seg_datum_labels s) -> In l L').
Proof.
  induction ss as [|s0 t IH]; intros L k i s Hi; [destruct i; discriminate|]. cbn [writes_from List.concat]. rewrite filter_app.
  destruct i as [|i]; cbn [nth_error] in Hi.
  - injection Hi as <-. rewrite Nat.add_0_r. exists (next_labels L s0). split; [|split].
    + rewrite filter_all by (intros r Hr; rewrite (drows_datum _ _ _ _ Hr); apply Z.eqb_refl).
      rewrite filter_none; [apply app_nil_r|]. intros r Hr. destruct (base_datum t _ _ r Hr) as (j & s' & L' & _ & Hr' & _).
      rewrite (drows_datum _ _ _ _ Hr'). lia.
    + intros H. apply first_appearance_NoDup. exact H.
    + intros l Hl. unfold next_labels. apply first_appearance_In. auto.
  - rewrite filter_none by (intros r Hr; rewrite (drows_datum _ _ _ _ Hr); lia). cbn [app].
    destruct (IH (next_labels L s0) (S k) i s Hi) as (L' & H1 & H2 & H3). replace (k + S i) with (S k + i) by lia.
    exists L'. split; [exact H1|]. split; [|exact H3]. intros H. apply H2. apply first_appearance_NoDup. exact H.
Qed.
Lemma all_view_rows ss T : Forall clean ss -> holds ss all_view T -> List.concat T = base ss.
Proof.
  intros Hc [-> _]. assert (E : forall r, In r (base ss) -> mask_row ss all_view r = r /\ rkept ss all_view r = true).
  { intros r Hr. destruct (base_row ss r Hc Hr) as (k & s & Hk & Hdes & Hg & Hp). unfold mask_row, rkept.
    rewrite (describes_datum ss k s r Hk Hdes). split; [|reflexivity]. cbn [option_map all_view v_gt v_pd].
    destruct r as [u d gl g pl p c mm]. cbn [s_gt_label s_pd_label s_gt s_pd s_uid s_datum s_count s_meta] in *. unfold mask_id. f_equal.
    - destruct gl; [reflexivity|]. cbn in Hg. congruence.
    - destruct pl; [reflexivity|]. cbn in Hp. congruence. }
  rewrite filter_all by (intros r Hr; apply E; exact Hr). rewrite <- (map_id (base ss)) at 2. apply map_ext_in. intros r Hr. apply E. exact Hr.
Qed.
Theorem stored_rows ss e k s : obtained ss all_view e -> Forall clean ss -> countable ss -> nth_error ss k = Some s ->
  row_pixels (datum_rows e k) = sg_size s /\
  (forall r, In r (datum_rows e k) ->
     s_count r = Z.of_nat (countb (fun p => same (gt_at s p) (s_gt_label r) && same (pd_at s p) (s_pd_label r)) (pixels s))) /\
  (forall a b, row_pixels (filter (fun r => same (s_gt_label r) a && same (s_pd_label r) b) (datum_rows e k))
     = Z.of_nat (countb (fun p => same (gt_at s p) a && same (pd_at s p) b) (pixels s))).
Proof.
  intros Ho Hc Hn Hk. destruct (obtained_holds ss all_view e Ho Hc) as (_ & HT & _).
  unfold datum_rows. rewrite (all_view_rows ss _ Hc HT). unfold base.
  destruct (writes_datum ss [] 0 k s Hk) as (L & E & HN & HL). cbn [Nat.add] in E. rewrite E. specialize (HN (NoDup_nil _)).
  assert (Hs : clean s) by (rewrite Forall_forall in Hc; apply Hc; eapply nth_error_In; exact Hk).
  assert (Hsm : (sg_size s < 2 ^ 64)%Z).
  { pose proof (countable_each ss Hc Hn) as X. rewrite Forall_forall in X. apply X. eapply nth_error_In; exact Hk. }
  split; [|split].
  - unfold row_pixels. transitivity (rsum (fun _ => true) (drows L k s)); [reflexivity|].
    rewrite (rows_sum L k s HN HL Hs Hsm (fun _ => true) (fun _ _ => true)) by reflexivity.
    unfold pixels. rewrite countb_true by reflexivity. rewrite seq_length. destruct Hs as [[H _] _]. lia.
  - intros r Hr. destruct (drows_In L k s HN Hs r Hr) as (i & j & Hi & Hj & _ & _ & _ & -> & _ & -> & -> & _).
    apply counts_cell; assumption.
  - intros a b. unfold row_pixels. rewrite rsum_filter. apply (rows_sum L k s HN HL Hs Hsm _ (fun g p => same g a && same p b)). reflexivity.
Qed.

(* ------------------------------------------------------------------ ranges *)
Lemma spec_ranges ss v : (forall l, 0 <= spec_precision ss v l <= 1 /\ 0 <= spec_recall ss v l <= 1 /\ 0 <= spec_f1 ss v l <= 1
    /\ 0 <= spec_unmatched_pd ss v l <= 1 /\ 0 <= spec_unmatched_gt ss v l <= 1)%Q
  /\ (forall a b, 0 <= spec_iou ss v a b <= 1)%Q /\ (0 <= spec_accuracy ss v <= 1)%Q.
Proof.
  split; [|split].
  - intros l. unfold spec_precision, spec_recall, spec_f1, spec_unmatched_pd, spec_unmatched_gt.
    assert (A : vcount ss v (fun g p => is_label g l && is_label p l) <= vcount ss v (fun g _ => is_label g l)).
    { apply vcount_mono. intros g p H. apply andb_true_iff in H. tauto. }
    assert (B : vcount ss v (fun g p => is_label g l && is_label p l) <= vcount ss v (fun _ p => is_label p l)).
    { apply vcount_mono. intros g p H. apply andb_true_iff in H. tauto. }
    split; [apply fraction_range; exact B|]. split; [apply fraction_range; exact A|].
    split; [apply fraction_range; lia|].
    split; apply fraction_range; apply vcount_mono; intros g p H; apply andb_true_iff in H; tauto.
  - intros a b. apply fraction_range, vcount_mono. intros g p H. apply andb_true_iff in H. apply orb_true_iff. tauto.
  - apply fraction_range, vcount_mono. reflexivity.
Qed.
Lemma qmean_range l : l <> [] -> Forall (fun q => 0 <= q <= 1)%Q l -> (0 <= qmean l <= 1)%Q.
Proof.
  intros N H. unfold qmean. set (n := List.length l).
  assert (P : (0 < inject_Z (Z.of_nat n))%Q).
  { unfold n. destruct l; [congruence|]. unfold Qlt, inject_Z. cbn [Qnum Qden List.length]. lia. }
  assert (S : (0 <= fold_right Qplus 0 l /\ fold_right Qplus 0 l <= inject_Z (Z.of_nat n))%Q).
  { unfold n. clear -H. induction H as [|q l Hq Hl IH]; [split; discriminate|]. cbn [fold_right List.length].
    rewrite Nat2Z.inj_succ. unfold Z.succ. rewrite inject_Z_plus. change (inject_Z 1) with 1%Q. destruct IH. split; lra. }
  destruct S as [S1 S2]. split; [apply Qle_shift_div_l; [exact P|]; rewrite Qmult_0_l; exact S1|apply Qle_shift_div_r; [exact P|]; rewrite Qmult_1_l; exact S2].
Qed.
Lemma lists_in L f out q : lists_of L f out -> In q (map snd out) -> exists l, In l L /\ (q == f l)%Q.
Proof.
  intros H. induction H as [|l x L out [_ Hx] Hr IH]; [intros []|]. intros [<-|Hq]; [exists l; split; [left|]; auto|].
  destruct (IH Hq) as (l' & Hl' & E). exists l'. split; [right|]; assumption.
Qed.
Theorem report_range ss v L rep : report_ok ss v L rep -> Forall (fun q => 0 <= q <= 1)%Q (report_values rep).
Proof.
  intros (Ha & Hcm & Hup & Hug & Hm & Hp & Hr & Hf & Hi). destruct (spec_ranges ss v) as (S1 & S2 & S3).
  apply Forall_forall. intros q Hq. unfold report_values in Hq.
  assert (X : forall f out, (forall l, 0 <= f l <= 1)%Q -> lists_of L f out -> In q (map snd out) -> (0 <= q <= 1)%Q).
  { intros f out Hf' Ho Hin. destruct (lists_in L f out q Ho Hin) as (l & _ & E). rewrite E. apply Hf'. }
  destruct Hq as [<-|Hq]; [rewrite Ha; exact S3|]. repeat (apply in_app_iff in Hq; destruct Hq as [Hq|Hq]).
  - apply in_flat_map in Hq. destruct Hq as (x & Hx & Hq). clear -Hcm Hx Hq S2.
    induction Hcm as [|a y L0 out [_ Hy] Hrest IH]; [destruct Hx|]. destruct Hx as [<-|Hx]; [|auto].
    destruct (lists_in _ _ _ q Hy Hq) as (l & _ & E). rewrite E. apply S2.
  - apply (X _ _ (fun l => proj1 (proj2 (proj2 (proj2 (S1 l))))) Hup Hq).
  - apply (X _ _ (fun l => proj2 (proj2 (proj2 (proj2 (S1 l))))) Hug Hq).
  - destruct (sr_miou rep) as [m|]; [|destruct Hq]. destruct Hq as [<-|[]]. destruct Hm as [N E]. rewrite E. apply qmean_range.
    + destruct L; [congruence|discriminate].
    + apply Forall_map, Forall_forall. intros l _. apply S2.
  - apply (X _ _ (fun l => proj1 (S1 l)) Hp Hq).
  - apply (X _ _ (fun l => proj1 (proj2 (S1 l))) Hr Hq).
  - apply (X _ _ (fun l => proj1 (proj2 (proj2 (S1 l)))) Hf Hq).
  - apply (X _ _ (fun l => S2 l l) Hi Hq).
Qed.

(* ------------------------------------------------------------------ independence of the storage *)
  Lemma cong_range {V} n d (f g : nat -> V) : (forall i, i < n -> f i = g i) -> by_range d n f = by_range d n g.
  Proof. intros E. unfold by_range. f_equal. apply map_ext_in. intros i Hi. apply in_seq in Hi. rewrite E by lia. reflexivity. Qed.
  Lemma cong_items n d (f g : nat -> Q) : (forall i, i < n -> f i = g i) -> by_items d n f = by_items d n g.
  Proof.
    intros E. unfold by_items. f_equal. apply map_ext_in. intros [z l] _. cbn [fst snd].
    destruct (((0 <=? z) && (z <? Z.of_nat n))%Z) eqn:B; [|reflexivity]. rewrite E by lia. reflexivity.
  Qed.
Section Congruence.
  Variables (n : nat) (m m' : nat -> nat -> Z).
  Hypothesis H : forall i j, i <= n -> j <= n -> m i j = m' i j.
  Lemma cong_row i : i <= n -> mrow n m i = mrow n m' i.
  Proof. intros Hi. unfold mrow. f_equal. apply zsum_ext. intros j Hj. apply in_seq in Hj. apply H; lia. Qed.
  Lemma cong_col j : j <= n -> mcol n m j = mcol n m' j.
  Proof. intros Hj. unfold mcol. f_equal. apply zsum_ext. intros i Hi. apply in_seq in Hi. apply H; lia. Qed.
  Lemma cong_iou i j : i < n -> j < n -> m_iou n m i j = m_iou n m' i j.
  Proof. intros Hi Hj. unfold m_iou. rewrite (H (S i) (S j)), cong_row, cong_col by lia. reflexivity. Qed.
  Lemma cong_p i : i < n -> m_precision n m i = m_precision n m' i.
  Proof. intros Hi. unfold m_precision. rewrite (H (S i) (S i)), cong_col by lia. reflexivity. Qed.
  Lemma cong_r i : i < n -> m_recall n m i = m_recall n m' i.
  Proof. intros Hi. unfold m_recall. rewrite (H (S i) (S i)), cong_row by lia. reflexivity. Qed.
  Lemma cong_f i : i < n -> m_f1 n m i = m_f1 n m' i.
  Proof. intros Hi. unfold m_f1. rewrite cong_p, cong_r by lia. reflexivity. Qed.
  Lemma cong_acc : m_accuracy n m = m_accuracy n m'.
  Proof.
    unfold m_accuracy. rewrite (H 0 0) by lia. f_equal; [f_equal; f_equal; f_equal|f_equal].
    - apply zsum_ext. intros i Hi. apply in_seq in Hi. apply H; lia.
    - apply zsum_ext. intros i Hi. apply in_seq in Hi. apply zsum_ext. intros j Hj. apply in_seq in Hj. apply H; lia.
  Qed.
  Lemma cong_miou : m_miou n m = m_miou n m'.
  Proof.
    assert (E : map (fun i => m_iou n m i i) (seq 0 n) = map (fun i => m_iou n m' i i) (seq 0 n)).
    { apply map_ext_in. intros i Hi. apply in_seq in Hi. apply cong_iou; lia. }
    unfold m_miou. rewrite E. reflexivity.
  Qed.
End Congruence.
Lemma report_cong d m m' : (forall i j, i <= List.length d -> j <= List.length d -> m i j = m' i j) -> seg_report d m = seg_report d m'.
Proof.
  intros H. unfold seg_report. set (n := List.length d) in *.
  rewrite (cong_range n d (fun i => by_range d n (m_iou n m i)) (fun i => by_range d n (m_iou n m' i))).
  2:{ intros i Hi. apply cong_range. intros j Hj. apply cong_iou; assumption. }
  rewrite (cong_range n d (m_unmatched_pd n m) (m_unmatched_pd n m')).
  2:{ intros i Hi. unfold m_unmatched_pd. rewrite (H 0 (S i)), (cong_col n m m' H) by lia. reflexivity. }
  rewrite (cong_range n d (m_unmatched_gt n m) (m_unmatched_gt n m')).
  2:{ intros i Hi. unfold m_unmatched_gt. rewrite (H (S i) 0), (cong_row n m m' H) by lia. reflexivity. }
  rewrite (cong_items n d (m_precision n m) (m_precision n m') (cong_p n m m' H)).
  rewrite (cong_items n d (m_recall n m) (m_recall n m') (cong_r n m m' H)).
  rewrite (cong_items n d (m_f1 n m) (m_f1 n m') (cong_f n m m' H)).
  rewrite (cong_items n d (fun i => m_iou n m i i) (fun i => m_iou n m' i i)) by (intros i Hi; apply cong_iou; assumption).
  rewrite (cong_acc n m m' H), (cong_miou n m m' H). reflexivity.
Qed.

Lemma vcount_same ss v w P : same_view ss v w -> vcount ss v P = vcount ss w P.
Proof.
  intros H. unfold vcount. rewrite !npix_filter. apply npix_ext. intros s p Hs _. destruct (H s Hs) as [-> Hl]. f_equal.
  unfold vgt, vpd, kept. f_equal.
  - destruct (gt_at s p); [|reflexivity]. rewrite (proj1 (Hl s0)). reflexivity.
  - destruct (pd_at s p); [|reflexivity]. rewrite (proj2 (Hl s0)). reflexivity.
Qed.
Theorem same_report ss v w e1 e2 e1d e2d sel1 sel2 :
  obtained ss v e1 -> obtained ss w e2 -> Forall clean ss -> countable ss ->
  datum_expr ss e1d sel1 -> datum_expr ss e2d sel2 ->
  same_view ss (with_datums v sel1) (with_datums w sel2) ->
  seg_compute e1 e1d = seg_compute e2 e2d.
Proof.
  intros H1 H2 Hc Hn D1 D2 E. destruct (obtained_holds ss v e1 H1 Hc) as (_ & T1 & L1). destruct (obtained_holds ss w e2 H2 Hc) as (_ & T2 & L2).
  unfold seg_compute. rewrite L1, L2. change (combine _ _) with (enum (seg_labels ss)). apply report_cong. rewrite enum_length.
  intros i j Hi Hj.
  assert (X : forall q, q <= List.length (seg_labels ss) -> exists a, index_label (seg_labels ss) q = Some a).
  { intros [|q] Hq; [exists None; reflexivity|]. cbn. destruct (nth_error (seg_labels ss) q) eqn:Y; [eexists; reflexivity|]. apply nth_error_None in Y. lia. }
  destruct (X i Hi) as (a & Ea). destruct (X j Hj) as (b & Eb).
  rewrite (matrix_cell ss v _ _ sel1 i j a b Hc Hn T1 D1 Ea Eb), (matrix_cell ss w _ _ sel2 i j a b Hc Hn T2 D2 Ea Eb).
  f_equal. apply vcount_same. exact E.
Qed.

(* ------------------------------------------------------------------ finalizing again *)
Lemma sadded_finals h h' : (forall c, In c h' -> exists o, c = SFinal o) -> sadded (h ++ h') = sadded h.
Proof.
  intros H. unfold sadded. rewrite map_app, concat_app. replace (List.concat (map _ h')) with (@nil segmentation); [apply app_nil_r|].
  symmetry. induction h' as [|c h' IH]; [reflexivity|]. destruct (H c (or_introl eq_refl)) as (o & ->). cbn. apply IH. intros x Hx. apply H. right. exact Hx.
Qed.
Theorem mem_finalize_again bs h h' o : (forall c, In c h' -> exists o, c = SFinal o) ->
  snd (smb_finalize o (smb_run bs (h ++ h'))) = snd (smb_finalize o (smb_run bs h)).
Proof.
  intros H. destruct (smb_finalize_spec bs h o) as [A1 A2]. destruct (smb_finalize_spec bs (h ++ h') o) as [B1 B2].
  rewrite (sadded_finals h h' H) in *. destruct (sadded h) as [|s t]; [rewrite A1, B1; reflexivity|]. rewrite A2, B2 by discriminate. reflexivity.
Qed.
Lemma flush_flush {A} (s : file_state A) : file_flush (file_flush s) = file_flush s.
Proof. unfold file_flush. destruct (f_buffer s); reflexivity. Qed.
Lemma sfb_after bs rpf h h' : (forall c, In c h' -> exists o, c = SFinal o) ->
  file_flush (sfb_writer (sfb_run bs rpf (h ++ h'))) = file_flush (sfb_writer (sfb_run bs rpf h)).
Proof.
  intros H. induction h' as [|c h' IH] using rev_ind; [rewrite app_nil_r; reflexivity|].
  rewrite app_assoc. unfold sfb_run in *. rewrite fold_left_app. cbn [fold_left]. destruct (H c) as (o & ->); [apply in_app_iff; right; left; reflexivity|].
  cbn [sfb_call]. unfold sfb_finalize. rewrite <- IH by (intros x Hx; apply H; apply in_app_iff; auto).
  destruct (Nat.eqb _ 0); cbn [fst sfb_writer]; apply flush_flush.
Qed.
Theorem file_finalize_again bs rpf h h' o : (forall c, In c h' -> exists o, c = SFinal o) ->
  snd (sfb_finalize o (sfb_run bs rpf (h ++ h'))) = snd (sfb_finalize o (sfb_run bs rpf h)).
Proof.
  intros H. pose proof (sfb_after bs rpf h h' H) as E. unfold sfb_finalize. rewrite E. destruct (Nat.eqb _ 0); reflexivity.
Qed.
(* the files written so far do not change by finalizing again *)
Theorem file_dir_again bs rpf h h' o o' : (forall c, In c h' -> exists o, c = SFinal o) ->
  f_dir (sfb_writer (fst (sfb_finalize o (sfb_run bs rpf (h ++ h'))))) = f_dir (sfb_writer (fst (sfb_finalize o' (sfb_run bs rpf h)))).
Proof.
  intros H. pose proof (sfb_after bs rpf h h' H) as E. unfold sfb_finalize. rewrite E.
  destruct (Nat.eqb _ 0); reflexivity.
Qed.
Theorem finalize_empty bs rpf h o :
  (snd (smb_finalize o (smb_run bs h)) = EmptyCache <-> sadded h = []) /\
  (snd (sfb_finalize o (sfb_run bs rpf h)) = EmptyCache <-> sadded h = []) /\
  (sadded h <> [] -> (exists e, snd (smb_finalize o (smb_run bs h)) = Done e) /\ (exists e, snd (sfb_finalize o (sfb_run bs rpf h)) = Done e)).
Proof.
  destruct (smb_finalize_spec bs h o) as [A1 A2]. destruct (sfb_finalize_spec bs rpf h o) as [B1 B2].
  destruct (sadded h) as [|s t].
  - split; [tauto|]. split; [tauto|]. congruence.
  - assert (N : s :: t <> []) by discriminate. rewrite (A2 N). destruct (B2 N) as (T & -> & _).
    split; [split; discriminate|]. split; [split; discriminate|]. eauto.
Qed.

(* ------------------------------------------------------------------ filters *)
Lemma filter_table_fields ed eg ep t : Forall2 kept_fields (filter (eval_expr ed) t) (seg_filter_table ed eg ep t).
Proof.
  unfold seg_filter_table. set (u := filter (eval_expr ed) t) at 1. set (u0 := filter (eval_expr ed) t).
  change u0 with u at 3. clearbody u. clearbody u0. induction u as [|r u IH]; cbn [map]; constructor; [|exact IH].
  unfold kept_fields. cbn. repeat split; [destruct (key_selected s_gt eg u0 r)|destruct (key_selected s_pd ep u0 r)]; auto.
Qed.
Lemma filtered_rows e e' bs rpf ed eg ep : (seg_filter_mem bs e ed eg ep = Done e' \/ seg_filter_file bs rpf e ed eg ep = Done e') ->
  se_labels e' = se_labels e /\ Forall2 kept_fields (filter (eval_expr ed) (List.concat (se_tables e))) (List.concat (se_tables e')).
Proof.
  intros H. assert (X : se_labels e' = se_labels e /\ List.concat (se_tables e') = List.concat (map (seg_filter_table ed eg ep) (se_tables e))).
  { destruct H as [H|H].
    - rewrite filter_mem_spec in H. cbv zeta in H. destruct (List.concat _) as [|x l]; [discriminate|]. injection H as <-. split; [reflexivity|]. cbn. rewrite app_nil_r. reflexivity.
    - pose proof (filter_file_spec bs rpf e ed eg ep) as S. cbv zeta in S. destruct (List.concat (map _ _)) as [|x l] eqn:E; [congruence|].
      destruct S as (gs & S & Hg). rewrite S in H. injection H as <-. split; [reflexivity|]. cbn [se_tables]. rewrite concat_map_concat, Hg. exact E. }
  destruct X as [X1 X2]. split; [exact X1|]. rewrite X2. clear. induction (se_tables e) as [|t ts IH]; [constructor|].
  cbn [List.concat map]. rewrite filter_app. apply Forall2_app; [apply filter_table_fields|exact IH].
Qed.
Theorem filter_pixels e e' bs rpf ed eg ep k : (seg_filter_mem bs e ed eg ep = Done e' \/ seg_filter_file bs rpf e ed eg ep = Done e') ->
  row_pixels (datum_rows e' k) = row_pixels (filter (eval_expr ed) (datum_rows e k)).
Proof.
  intros H. destruct (filtered_rows e e' bs rpf ed eg ep H) as [_ F]. unfold row_pixels, datum_rows.
  assert (E : forall l, filter (eval_expr ed) (filter (fun r => (s_datum r =? Z.of_nat k)%Z) l)
                      = filter (fun r => (s_datum r =? Z.of_nat k)%Z) (filter (eval_expr ed) l)).
  { intros l. rewrite !filter_filter. apply filter_ext. intros x. apply andb_comm. }
  rewrite E.
  induction F as [|r r' l l' Hr Hl IH]; [reflexivity|]. cbn [filter]. destruct Hr as (_ & -> & _ & _ & Hc & _).
  destruct (s_datum r =? Z.of_nat k)%Z; cbn [map zsum fold_right]; [rewrite Hc; f_equal; exact IH|exact IH].
Qed.

(* reading a filtered directory back with the labels of the filtered evaluator *)
Theorem load_filtered bs rpf e e' ed eg ep d :
  seg_filter_file bs rpf e ed eg ep = Done e' -> Permutation d (seg_filter_dir bs rpf e ed eg ep) ->
  seg_load d (Some (se_labels e')) = e'.
Proof.
  unfold seg_filter_file, seg_filter_dir, seg_filter_build. rewrite <- (map_map (seg_filter_table ed eg ep) WriteTable).
  unfold sfb_finalize. cbn [sfb_labels sfb_count sfb_writer].
  set (ts := map (seg_filter_table ed eg ep) (se_tables e)).
  change (fold_left (file_step bs rpf) (map WriteTable ts) file_init) with (file_run bs rpf (map WriteTable ts)).
  destruct (Nat.eqb _ 0); cbn [snd fst sfb_writer]; [discriminate|]. intros H Hd. injection H as <-. unfold seg_load. cbn [se_labels]. f_equal.
  etransitivity; [apply (read_tables bs rpf (map WriteTable ts)); exact Hd|]. symmetry. apply (read_tables bs rpf (map WriteTable ts)). apply Permutation_refl.
Qed.
