(* The float reports entry by entry against the exact reports (C112). *)
From Verif Require Import Prelude Counting CacheModel ClsModel RocModel FlowModel ClsFilterModel ClsReportModel
  DetModel DetFlowModel DetReportModel FloatModel FloatProofs RndProofs FReportModel FReportSpec FReportProofs.
From Verif Require SegModel.
From Coq Require Import Lia String QArith Qabs Qminmax Lqa Permutation.
Local Notation length := List.length (only parsing).
Local Notation concat := List.concat (only parsing).
Local Open Scope Z_scope.

Definition ratio (a b : Z) : Q := if 0 <? b then (inject_Z a / inject_Z b)%Q else 0%Q.
Lemma rounded_0 : rounded 0 0.
Proof.
  unfold rounded. split; [intros; rewrite (Qabs_wd _ 0) by ring; apply Qabs_nonneg|]. split; [lra|]. split; [vm_compute; discriminate|].
  split; [tauto|]. intros _. split; [lra|]. tauto.
Qed.
Lemma ratio_rounded a b : 0 <= a <= 2 ^ 53 -> 0 <= b <= 2 ^ 53 -> rounded (ratio a b) (fdivz a b).
Proof.
  intros Ha Hb. unfold ratio. destruct (Z.ltb_spec 0 b) as [B|B].
  2: { replace b with 0 by lia. exact rounded_0. }
  rewrite fdivz_small by lia. pose proof (div_nonneg a b ltac:(lia) ltac:(lia)) as D0. pose proof (inject_pos b B) as PB.
  split; [|split; [apply rnd_nonneg|split; [apply abs_err; [exact D0|apply rnd_err; exact D0]|split]]].
  - intros k e Hk. destruct (Qlt_le_dec 0 (inject_Z a / inject_Z b)) as [L|L]; [apply rnd_nearest; assumption|].
    rewrite (rnd_zero _ L). rewrite (Qabs_wd _ 0) by lra. apply Qabs_nonneg.
  - rewrite rnd_zero_iff. split; intros; lra.
  - intros Q1. assert (AB : a <= b).
    { assert (G : (inject_Z a <= inject_Z b)%Q).
      { assert (E : (inject_Z a / inject_Z b * inject_Z b == inject_Z a)%Q) by (field; lra). rewrite <- E. nra. }
      rewrite <- Zle_Qle in G. exact G. }
    split; [apply quotient_le_1; lia|]. split; intros G.
    + destruct (Z.eq_dec a b) as [->|NE]; [field; lra|]. pose proof (quotient_lt_1 a b ltac:(lia) ltac:(lia)). lra.
    + rewrite (rnd_comp _ 1 G). exact rnd_1.
Qed.
Lemma rounded_wd q q' v : (q == q')%Q -> rounded q v -> rounded q' v.
Proof.
  intros E (H1 & H2 & H3 & H4 & H5). split; [|split; [|split; [|split]]].
  - intros k e Hk. rewrite <- E. apply H1. exact Hk.
  - exact H2.
  - rewrite <- E. exact H3.
  - rewrite <- E. exact H4.
  - rewrite <- E. exact H5.
Qed.
Lemma qdiv_ratio n d : qdiv_or_0 n d = ratio (Z.of_nat n) (Z.of_nat d).
Proof. unfold qdiv_or_0, ratio. destruct (Nat.ltb_spec 0 d), (Z.ltb_spec 0 (Z.of_nat d)); try reflexivity; lia. Qed.
Lemma fdiv_rounded n d : Z.of_nat n <= 2 ^ 53 -> Z.of_nat d <= 2 ^ 53 -> rounded (qdiv_or_0 n d) (fdiv n d).
Proof. intros Hn Hd. rewrite qdiv_ratio. apply ratio_rounded; lia. Qed.

(* the exact F1 of the model *)
Lemma f1_value tp fp fn : 0 < tp -> 0 <= fp -> 0 <= fn -> tp + fp <= 1000000000 -> tp + fn <= 1000000000 ->
  (f1 (ratio tp (tp + fp)) (ratio tp (tp + fn)) == inject_Z (2 * tp) / inject_Z (2 * tp + fp + fn))%Q.
Proof.
  intros Ht Hf Hn B1 B2. unfold ratio. replace (0 <? tp + fp) with true by lia. replace (0 <? tp + fn) with true by lia.
  pose proof (inject_pos tp Ht). pose proof (inject_pos (tp + fp) ltac:(lia)). pose proof (inject_pos (tp + fn) ltac:(lia)).
  assert (L : forall n, tp <= n <= 1000000000 -> ((1 # 1000000000) <= inject_Z tp / inject_Z n)%Q).
  { intros n Hn'. apply Qle_shift_div_l; [apply inject_pos; lia|]. assert (1 <= inject_Z tp)%Q by (change 1%Q with (inject_Z 1); rewrite <- Zle_Qle; lia).
    assert (inject_Z n <= 1000000000)%Q by (change 1000000000%Q with (inject_Z 1000000000); rewrite <- Zle_Qle; lia). lra. }
  pose proof (L (tp + fp) ltac:(lia)). pose proof (L (tp + fn) ltac:(lia)). unfold f1. destruct (Qlt_le_dec _ _) as [G|G]; [|lra].
  replace (2 * tp + fp + fn) with ((tp + fp) + (tp + fn)) by ring. rewrite (inject_Z_plus (tp + fp)), inject_Z_mult.
  change (inject_Z 2) with 2%Q. field. repeat split; try lra.
  assert (0 < inject_Z tp * inject_Z (tp + fn) + inject_Z tp * inject_Z (tp + fp))%Q by nra. lra.
Qed.
Lemma ratio_0 b : (ratio 0 b == 0)%Q.
Proof. unfold ratio. destruct (0 <? b); [|reflexivity]. unfold Qdiv. change (inject_Z 0) with 0%Q. ring. Qed.
Lemma f1_no_tp a b : (f1 (ratio 0 a) (ratio 0 b) == 0)%Q.
Proof.
  unfold f1. destruct (Qlt_le_dec _ _) as [G|G]; [|reflexivity]. pose proof (ratio_0 a). pose proof (ratio_0 b). lra.
Qed.
Lemma reports_nearly tp fp fn q v : 0 <= tp -> 0 <= fp -> 0 <= fn -> (tp = 0 -> (q == 0)%Q) ->
  (0 < tp -> (q == inject_Z (2 * tp) / inject_Z (2 * tp + fp + fn))%Q) -> reports_f1 tp fp fn v -> nearly 5 q v.
Proof.
  intros H1 H2 H3 Q0 Q1 (A & B & C & D & E). destruct (Z.eq_dec tp 0) as [Z0|Z0].
  - specialize (Q0 Z0). assert (V0 : (v == 0)%Q) by (apply C; exact Z0). split; [exact A|]. split; [exact B|].
    split; [|split; split; intros; lra]. rewrite Q0, V0. vm_compute. discriminate.
  - specialize (Q1 ltac:(lia)). specialize (E ltac:(lia)). cbv zeta in E. rewrite <- Q1 in E.
    assert (PQ : (0 < q)%Q).
    { rewrite Q1. apply Qlt_shift_div_l; [apply inject_pos; lia|]. rewrite Qmult_0_l. apply inject_pos. lia. }
    split; [exact A|]. split; [exact B|]. split; [exact E|]. split.
    + rewrite C. split; intros; [lia|lra].
    + rewrite D, Q1. pose proof (inject_pos (2 * tp + fp + fn) ltac:(lia)) as P. split.
      * intros (_ & -> & ->). rewrite !Z.add_0_r in *. field. lra.
      * intros G. assert (X : (inject_Z (2 * tp) == inject_Z (2 * tp + fp + fn))%Q).
        { transitivity (inject_Z (2 * tp) / inject_Z (2 * tp + fp + fn) * inject_Z (2 * tp + fp + fn))%Q; [field; lra|]. rewrite G. ring. }
        unfold Qeq in X. simpl in X. lia.
Qed.

(* ------------------------------------------------------------------ *)
(** * Classification *)

Lemma per_label_map e {V} (f : counts -> V) rows :
  per_label e f rows = map (fun x => (fst x, option_map f (snd x))) (per_label e (fun c => c) rows).
Proof.
  unfold per_label. rewrite concat_map, map_map. f_equal. apply map_ext. intros kl. rewrite map_map. apply map_ext. intros tr. cbn [fst snd].
  destruct (nth_error _ _); reflexivity.
Qed.
Lemma per_label_nth e {V} (f : counts -> V) rows k x c :
  nth_error (per_label e (fun c => c) rows) k = Some (x, Some c) -> nth_error (per_label e f rows) k = Some (x, Some (f c)).
Proof. intros H. rewrite per_label_map, nth_error_map, H. reflexivity. Qed.

Lemma fprecision_fdivz c : fprecision c = fdivz (Z.of_nat (n_tp c)) (Z.of_nat (n_tp c) + Z.of_nat (n_fp c)).
Proof. unfold fprecision, fdiv. rewrite Nat2Z.inj_add. reflexivity. Qed.
Lemma fcrecall_fdivz c : fcrecall c = fdivz (Z.of_nat (n_tp c)) (Z.of_nat (n_tp c) + Z.of_nat (n_fn c)).
Proof. unfold fcrecall, fdiv. rewrite Nat2Z.inj_add. reflexivity. Qed.

Lemma cls_f1_nearly c : Z.of_nat (n_tp c + n_fp c) <= 1000000000 -> Z.of_nat (n_tp c + n_fn c) <= 1000000000 ->
  nearly 5 (f1 (precision c) (recall c)) (ff1 (fprecision c) (fcrecall c)).
Proof.
  intros B1 B2. rewrite fprecision_fdivz, fcrecall_fdivz. unfold precision, recall. rewrite !qdiv_ratio, !Nat2Z.inj_add.
  apply (reports_nearly (Z.of_nat (n_tp c)) (Z.of_nat (n_fp c)) (Z.of_nat (n_fn c))); try lia.
  - intros ->. apply f1_no_tp.
  - intros Ht. apply f1_value; lia.
  - apply ff1_reports; lia.
Qed.

Lemma accuracy_quot tps n : accuracy tps n = qdiv_or_0 (list_sum_nat tps) n.
Proof. unfold accuracy, qdiv_or_0. destruct n; reflexivity. Qed.
Lemma faccuracy_quot tps n : faccuracy tps n = fdiv (list_sum_nat tps) n.
Proof. unfold faccuracy. destruct n; reflexivity. Qed.
Section ClsReport.
  Variables (e : ceval) (tol : Z) (hm : bool) (thrs : list Z) (datums : crow -> bool).
  Lemma cls_reports_shape : match report_metrics e tol hm thrs datums, report_fmetrics e tol hm thrs datums with
    | None, None => thrs = []
    | Some x, Some f => mt_counts f = mt_counts x /\ map fst (mt_accuracy f) = map fst (mt_accuracy x)
    | _, _ => False
    end.
  Proof.
    unfold report_metrics, report_fmetrics. destruct thrs as [|t0 ts]; [reflexivity|]. split; [reflexivity|]. cbn [mt_accuracy].
    rewrite !map_map. reflexivity.
  Qed.
  Variables x f : cls_metrics.
  Hypothesis Hx : report_metrics e tol hm thrs datums = Some x.
  Hypothesis Hf : report_fmetrics e tol hm thrs datums = Some f.
  Lemma cls_entry k l t c : nth_error (mt_counts x) k = Some (l, t, Some c) ->
    nth_error (mt_precision x) k = Some (l, t, Some (precision c)) /\ nth_error (mt_precision f) k = Some (l, t, Some (fprecision c)) /\
    nth_error (mt_recall x) k = Some (l, t, Some (recall c)) /\ nth_error (mt_recall f) k = Some (l, t, Some (fcrecall c)) /\
    nth_error (mt_f1 x) k = Some (l, t, Some (f1 (precision c) (recall c))) /\ nth_error (mt_f1 f) k = Some (l, t, Some (ff1 (fprecision c) (fcrecall c))).
  Proof.
    revert Hx Hf. unfold report_metrics, report_fmetrics. destruct thrs as [|t0 ts]; [discriminate|]. intros Ex Ef.
    injection Ex as <-. injection Ef as <-. cbn [mt_counts mt_precision mt_recall mt_f1]. intros H.
    repeat match goal with |- _ /\ _ => split end.
    - exact (per_label_nth e precision _ k (l, t) c H).
    - exact (per_label_nth e fprecision _ k (l, t) c H).
    - exact (per_label_nth e recall _ k (l, t) c H).
    - exact (per_label_nth e fcrecall _ k (l, t) c H).
    - exact (per_label_nth e (fun c => f1 (precision c) (recall c)) _ k (l, t) c H).
    - exact (per_label_nth e (fun c => ff1 (fprecision c) (fcrecall c)) _ k (l, t) c H).
  Qed.
  Lemma cls_accuracy_entry k t q : nth_error (mt_accuracy x) k = Some (t, q) ->
    exists s n, q = qdiv_or_0 s n /\ n = snd (cls_info (fun _ => true) e) /\ nth_error (mt_accuracy f) k = Some (t, fdiv s n).
  Proof.
    revert Hx Hf. unfold report_metrics, report_fmetrics. destruct thrs as [|t0 ts]; [discriminate|]. intros Ex Ef.
    injection Ex as <-. injection Ef as <-. cbn [mt_accuracy]. rewrite !nth_error_map.
    match goal with |- option_map _ (nth_error ?L k) = _ -> _ => destruct (nth_error L k) as [tr|]; [|discriminate] end. cbn [option_map]. intros H. injection H as <- <-.
    exists (list_sum_nat (map n_tp (snd tr))), (snd (cls_info (fun _ => true) e)). split; [|split; [reflexivity|]].
    - apply accuracy_quot.
    - f_equal. f_equal. apply faccuracy_quot.
  Qed.
End ClsReport.
