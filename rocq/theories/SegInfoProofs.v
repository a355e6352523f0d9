(* get_info counts datums and pixels of the view. *)
From Verif Require Import Prelude Counting CacheModel CacheSpec ClsModel ClsSpec ClsLabelProofs FlowModel DetFlowModel SegModel SegSpec SegPixelProofs SegProofs SegStoreProofs SegLabelProofs SegFlowProofs SegMetricProofs.
From Coq Require Import QArith String.
Local Open Scope nat_scope.
Local Open Scope list_scope.

Lemma seg_counts_sums T ed eg ep :
  seg_counts T ed eg ep =
  (list_sum_nat (map (dcount Z.eq_dec s_datum (eval_expr ed)) T),
   zsum (map (fun t => u64 (rsum (eval_expr ed) t)) T),
   zsum (map (fun t => u64 (rsum (fun r => eval_expr ed r && ((0 <=? s_gt r)%Z && eval_expr eg r)) t)) T),
   zsum (map (fun t => u64 (rsum (fun r => eval_expr ed r && ((0 <=? s_pd r)%Z && eval_expr ep r)) t)) T)).
Proof.
  unfold seg_counts.
  assert (FF : forall (P Q : srow -> bool) t, zsum (map s_count (filter Q (filter P t))) = rsum (fun r => P r && Q r) t).
  { intros P Q t. rewrite rsum_filter. unfold rsum, zsum. induction t as [|r t IH]; [reflexivity|]. cbn [filter].
    destruct (P r) eqn:E; cbn [map fold_right]; rewrite ?E; cbn [andb]; rewrite IH; reflexivity. }
  match goal with |- fold_left ?f _ _ = _ => set (F := f) end.
  assert (G : forall T a b c d, fold_left F T (a, b, c, d) =
    (a + list_sum_nat (map (dcount Z.eq_dec s_datum (eval_expr ed)) T),
     (b + zsum (map (fun t => u64 (rsum (eval_expr ed) t)) T))%Z,
     (c + zsum (map (fun t => u64 (rsum (fun r => eval_expr ed r && ((0 <=? s_gt r)%Z && eval_expr eg r)) t)) T))%Z,
     (d + zsum (map (fun t => u64 (rsum (fun r => eval_expr ed r && ((0 <=? s_pd r)%Z && eval_expr ep r)) t)) T))%Z)).
  { induction T0 as [|t T' IH]; intros a b c d.
    - cbn. rewrite Nat.add_0_r, !Z.add_0_r. reflexivity.
    - cbn [fold_left]. unfold F at 2. unfold usum. rewrite !FF, rsum_filter, IH. cbn [map]. unfold zsum, list_sum_nat. cbn [fold_right].
      unfold dcount, dkeys. rewrite !Z.add_assoc, Nat.add_assoc. reflexivity. }
  rewrite G. reflexivity.
Qed.

Lemma base_count_nonneg ss r : Forall clean ss -> countable ss -> In r (base ss) -> (0 <= s_count r)%Z.
Proof.
  intros Hc Hn Hr. apply base_datum in Hr. destruct Hr as (k & s & L' & Hk & Hr & EL & Ext). cbn [Nat.add] in Hr.
  assert (HL : NoDup L') by (subst L'; apply first_appearance_NoDup; constructor).
  pose proof (countable_each ss Hc Hn) as Hsm. rewrite Forall_forall in Hc, Hsm. pose proof (nth_error_In _ _ Hk) as Hs.
  destruct (drows_In L' k s HL (Hc s Hs) r Hr) as (i & j & Hi & Hj & _ & _ & _ & _ & _ & _ & C & _).
  rewrite C. rewrite (counts_cell L' s HL); [lia| |apply Hc; exact Hs|apply Hsm; exact Hs|exact Hi|exact Hj].
  intros l Hl. rewrite EL. eapply prefix_labels; eassumption.
Qed.
Lemma rsum_nonneg Q l : (forall r, In r l -> (0 <= s_count r)%Z) -> (0 <= rsum Q l)%Z.
Proof.
  unfold rsum, zsum. induction l as [|r l IH]; intros H; [cbn; lia|]. cbn [map fold_right].
  specialize (IH (fun x h => H x (or_intror h))). pose proof (H r (or_introl eq_refl)). destruct (Q r); lia.
Qed.
Lemma rsum_le Q l : (forall r, In r l -> (0 <= s_count r)%Z) -> (rsum Q l <= rsum (fun _ => true) l)%Z.
Proof.
  unfold rsum, zsum. induction l as [|r l IH]; intros H; [cbn; lia|]. cbn [map fold_right].
  specialize (IH (fun x h => H x (or_intror h))). pose proof (H r (or_introl eq_refl)). destruct (Q r); lia.
Qed.
Lemma rsum_part Q T t : (forall r, In r (List.concat T) -> (0 <= s_count r)%Z) -> In t T -> (0 <= rsum Q t <= rsum (fun _ => true) (List.concat T))%Z.
Proof.
  intros H Ht. apply in_split in Ht. destruct Ht as (a & b & ->). rewrite concat_app in *. cbn [List.concat] in *.
  assert (H1 : forall r, In r t -> (0 <= s_count r)%Z) by (intros r Hr; apply H; rewrite !in_app_iff; auto).
  split; [apply rsum_nonneg; exact H1|]. rewrite !rsum_app. pose proof (rsum_le Q t H1).
  assert (0 <= rsum (fun _ => true) (List.concat a))%Z by (apply rsum_nonneg; intros r Hr; apply H; rewrite !in_app_iff; auto).
  assert (0 <= rsum (fun _ => true) (List.concat b))%Z by (apply rsum_nonneg; intros r Hr; apply H; rewrite !in_app_iff; auto). lia.
Qed.
Lemma rsum_concat Q T : rsum Q (List.concat T) = zsum (map (rsum Q) T).
Proof. induction T as [|t T IH]; [reflexivity|]. cbn [List.concat map zsum fold_right]. rewrite rsum_app, IH. reflexivity. Qed.

Lemma length_selected {A} (f : A -> bool) l :
  List.length (filter (fun k => match nth_error l k with Some s => f s | None => false end) (seq 0 (List.length l))) = List.length (filter f l).
Proof.
  induction l as [|s l IH]; [reflexivity|]. cbn [List.length]. rewrite seq_S_map. cbn [filter nth_error].
  assert (X : List.length (filter (fun k => match nth_error (s :: l) k with Some s0 => f s0 | None => false end) (map S (seq 0 (List.length l)))) = List.length (filter f l)).
  { rewrite <- IH. clear IH. induction (seq 0 (List.length l)) as [|k ks IH]; [reflexivity|]. cbn [map filter nth_error].
    destruct (match nth_error l k with Some s0 => f s0 | None => false end); cbn [List.length]; rewrite IH; reflexivity. }
  destruct (f s); cbn [List.length]; rewrite X; reflexivity.
Qed.

Section Info.
  Variables (ss : list segmentation) (v w : view) (T : list (list srow)) (ed eg ep : expr).
  Hypothesis Hc : Forall clean ss.
  Hypothesis Hn : countable ss.
  Hypothesis HT : holds ss v T.
  Hypothesis Hd : datum_expr ss ed (v_datum w).
  Hypothesis Hg : gt_expr ss eg (v_gt w).
  Hypothesis Hp : pd_expr ss ep (v_pd w).

  Lemma holds_nonneg r : In r (List.concat T) -> (0 <= s_count r)%Z.
  Proof.
    destruct HT as [-> _]. intros Hr. apply in_map_iff in Hr. destruct Hr as (b & <- & Hb). apply filter_In in Hb.
    cbn [mask_row s_count]. apply (base_count_nonneg ss); tauto.
  Qed.
  Lemma rsum_all : (rsum (fun _ => true) (List.concat T) < 2 ^ 64)%Z.
  Proof.
    rewrite (holds_sum ss v T Hc HT _ (fun _ _ _ => true) Hn) by reflexivity.
    eapply Z.le_lt_trans; [|exact Hn]. rewrite npix_filter. apply npix_bound. exact Hc.
  Qed.
  Lemma no_wrap Q : zsum (map (fun t => u64 (rsum Q t)) T) = rsum Q (List.concat T).
  Proof.
    rewrite rsum_concat. apply zsum_ext. intros t Ht. apply u64_small.
    pose proof (rsum_part Q T t holds_nonneg Ht). pose proof rsum_all. lia.
  Qed.
  Lemma row_datum r k s : In r (List.concat T) -> nth_error ss k = Some s -> s_datum r = Z.of_nat k -> describes ss k s r.
  Proof.
    intros Hr Hk Hd'. destruct (holds_row ss v T Hc HT r Hr) as (k' & s' & Hk' & Hdes & _).
    assert (k' = k) by (destruct Hdes as (D & _); lia). subst. congruence.
  Qed.

  Lemma count_datums : list_sum_nat (map (dcount Z.eq_dec s_datum (eval_expr ed)) T)
    = List.length (filter (fun s => v_datum v s && v_datum w s) ss).
  Proof.
    rewrite <- dcount_concat.
    2:{ intros i j li lj a b Hi Hj N Ha Hb _ _ E. apply N. destruct HT as [_ A]. exact (A i j li lj a b Hi Hj Ha Hb E). }
    transitivity (List.length (map Z.of_nat (filter (fun k => match nth_error ss k with Some s => v_datum v s && v_datum w s | None => false end) (seq 0 (List.length ss))))).
    - unfold dcount. apply Permutation_length. apply NoDup_Permutation.
      + apply dkeys_NoDup.
      + apply FinFun.Injective_map_NoDup; [intros x y E; lia|]. apply NoDup_filter, seq_NoDup.
      + intros x. rewrite dkeys_In, in_map_iff. split.
        * intros (r & Hr & He & <-). destruct (holds_row ss v T Hc HT r Hr) as (k & s & Hk & Hdes & Hv & _).
          exists k. destruct Hdes as (D & Hrest). split; [congruence|]. apply filter_In. split.
          -- apply in_seq. assert (k < List.length ss) by (apply nth_error_Some; congruence). lia.
          -- rewrite Hk, Hv. cbn. rewrite <- (describes_datum_expr ss ed (v_datum w) k s r Hd Hk (conj D Hrest)). exact He.
        * intros (k & <- & Hk). apply filter_In in Hk. destruct Hk as [_ Hk]. destruct (nth_error ss k) as [s|] eqn:Es; [|discriminate].
          apply andb_true_iff in Hk. destruct Hk as [Hk1 Hk2].
          destruct (proj2 (holds_datums ss v T k Hc HT)) as (r & Hr & Hdr); [eauto|].
          exists r. split; [exact Hr|]. split; [|exact Hdr].
          rewrite (describes_datum_expr ss ed (v_datum w) k s r Hd Es (row_datum r k s Hr Es Hdr)). exact Hk2.
    - rewrite map_length. apply (length_selected (fun s => v_datum v s && v_datum w s)).
  Qed.

  Lemma sum_view (Q : srow -> bool) (F : segmentation -> option string -> option string -> bool) :
    (forall r k s, In r (List.concat T) -> nth_error ss k = Some s -> describes ss k s r ->
       Q r = v_datum w s && F s (eff (s_gt r) (s_gt_label r)) (eff (s_pd r) (s_pd_label r))) ->
    rsum Q (List.concat T) = Z.of_nat (npix (filter (fun s => v_datum v s && v_datum w s) ss) (fun s p => F s (vgt v s p) (vpd v s p))).
  Proof.
    intros H. rewrite (holds_sum ss v T Hc HT Q (fun s g p => v_datum w s && F s g p) Hn).
    - rewrite !npix_filter. f_equal. apply npix_ext. intros s p _ _. rewrite andb_assoc. reflexivity.
    - intros r k s Hr Hk Hdr. apply (H r k s Hr Hk). apply row_datum; assumption.
  Qed.

  Theorem counts_correct : exists nd, seg_counts T ed eg ep =
    (nd, total_pixels (filter (fun s => v_datum v s && v_datum w s) ss),
     Z.of_nat (npix (filter (fun s => v_datum v s && v_datum w s) ss) (fun s p => on_label (v_gt w s) (vgt v s p))),
     Z.of_nat (npix (filter (fun s => v_datum v s && v_datum w s) ss) (fun s p => on_label (v_pd w s) (vpd v s p))))
    /\ nd = List.length (filter (fun s => v_datum v s && v_datum w s) ss).
  Proof.
    eexists. rewrite seg_counts_sums. split; [|apply count_datums]. rewrite !no_wrap. f_equal; [f_equal; [f_equal|]|].
    - rewrite (sum_view _ (fun _ _ _ => true)).
      + apply npix_true. apply Forall_forall. rewrite Forall_forall in Hc. intros s Hs. apply Hc. apply filter_In in Hs. tauto.
      + intros r k s Hr Hk Hdes. rewrite andb_true_r. apply (describes_datum_expr ss ed _ k s r Hd Hk Hdes).
    - apply (sum_view _ (fun s g _ => on_label (v_gt w s) g)). intros r k s Hr Hk Hdes.
      rewrite (describes_datum_expr ss ed _ k s r Hd Hk Hdes). f_equal.
      destruct (holds_row ss v T Hc HT r Hr) as (k' & s' & Hk' & Hdes' & _ & G & _).
      destruct G as [G|(i & l & G1 & G2 & _)].
      + rewrite G. reflexivity.
      + unfold eff. destruct (s_gt r <? 0)%Z eqn:E; [lia|]. rewrite G2. cbn [on_label].
        destruct (0 <=? s_gt r)%Z eqn:E2; [|lia]. apply (describes_gt_expr ss eg _ k s r l Hg Hk Hdes G2).
    - apply (sum_view _ (fun s _ p => on_label (v_pd w s) p)). intros r k s Hr Hk Hdes.
      rewrite (describes_datum_expr ss ed _ k s r Hd Hk Hdes). f_equal.
      destruct (holds_row ss v T Hc HT r Hr) as (k' & s' & Hk' & Hdes' & _ & _ & G).
      destruct G as [G|(i & l & G1 & G2 & _)].
      + rewrite G. reflexivity.
      + unfold eff. destruct (s_pd r <? 0)%Z eqn:E; [lia|]. rewrite G2. cbn [on_label].
        destruct (0 <=? s_pd r)%Z eqn:E2; [|lia]. apply (describes_pd_expr ss ep _ k s r l Hp Hk Hdes G2).
  Qed.
End Info.

Theorem info_correct ss v w e ed eg ep :
  obtained ss v e -> Forall clean ss -> countable ss ->
  datum_expr ss ed (v_datum w) -> gt_expr ss eg (v_gt w) -> pd_expr ss ep (v_pd w) ->
  info_ok ss v w (seg_info e ed eg ep).
Proof.
  intros Ho Hc Hn Hd Hg Hp. destruct (obtained_holds ss v e Ho Hc) as (_ & HT & HL).
  unfold seg_info. destruct (counts_correct ss v w (se_tables e) ed eg ep Hc Hn HT Hd Hg Hp) as (nd & -> & ->).
  unfold info_ok. cbv zeta. cbn [si_labels si_datums si_pixels si_gt_pixels si_pd_pixels].
  split; [|repeat split]. rewrite HL. apply enum_length.
Qed.
