(* Segmentation reports over permuted and over concatenated data. *)
From Verif Require Import Prelude Counting CacheModel CacheSpec ClsModel ClsSpec ClsLabelProofs FlowModel DetFlowModel SegModel SegSpec
  SegPixelProofs SegStoreProofs SegMetricProofs SegInfoProofs SegMore SegReorderSpec.
From Coq Require Import QArith String Lqa Lia.
Local Open Scope nat_scope.
Local Open Scope list_scope.

Lemma nsum_perm {A} (f : A -> nat) l l' : Permutation l l' -> list_sum_nat (map f l) = list_sum_nat (map f l').
Proof. intros H. apply list_sum_nat_perm, Permutation_map, H. Qed.
Lemma zsum_perm {A} (f : A -> Z) l l' : Permutation l l' -> zsum (map f l) = zsum (map f l').
Proof. unfold zsum. induction 1; cbn [map fold_right]; [reflexivity|f_equal; assumption|ring|congruence]. Qed.
Lemma filter_perm {A} (p : A -> bool) l l' : Permutation l l' -> Permutation (filter p l) (filter p l').
Proof.
  induction 1; cbn.
  - constructor.
  - destruct (p x); [constructor; assumption|assumption].
  - destruct (p x), (p y); try reflexivity. apply perm_swap.
  - etransitivity; eassumption.
Qed.
Lemma vcount_perm v P l l' : Permutation l l' -> vcount l v P = vcount l' v P.
Proof. intros H. apply nsum_perm, filter_perm, H. Qed.
Lemma npix_app P a b : npix (a ++ b) P = npix a P + npix b P.
Proof. unfold npix. rewrite map_app. apply list_sum_nat_app. Qed.
Lemma vcount_app v P a b : vcount (a ++ b) v P = vcount a v P + vcount b v P.
Proof. unfold vcount. rewrite filter_app. apply npix_app. Qed.
Lemma zsum_app a b : zsum (a ++ b) = (zsum a + zsum b)%Z.
Proof. unfold zsum. induction a as [|x t IH]; cbn [app fold_right]; [reflexivity|]. rewrite IH. ring. Qed.
Lemma total_app a b : total_pixels (a ++ b) = (total_pixels a + total_pixels b)%Z.
Proof. unfold total_pixels. rewrite map_app. apply zsum_app. Qed.

Lemma concat_perm {A B} (f : A -> list B) l l' : Permutation l l' -> Permutation (List.concat (map f l)) (List.concat (map f l')).
Proof.
  induction 1; cbn; [constructor|apply Permutation_app_head; assumption| |etransitivity; eassumption].
  rewrite !app_assoc. apply Permutation_app_tail, Permutation_app_comm.
Qed.
Lemma seg_labels_In ss l : In l (seg_labels ss) <-> exists s, In s ss /\ In l (seg_datum_labels s).
Proof.
  unfold seg_labels. rewrite first_appearance_In. split.
  - intros [[]|H]. apply in_concat in H. destruct H as (x & Hx & Hl). apply in_map_iff in Hx. destruct Hx as (s & <- & Hs). eauto.
  - intros (s & Hs & Hl). right. apply in_concat. exists (seg_datum_labels s). split; [apply in_map, Hs|exact Hl].
Qed.
Lemma seg_labels_NoDup ss : NoDup (seg_labels ss).
Proof. apply first_appearance_NoDup. constructor. Qed.
Lemma seg_labels_perm l l' : Permutation l l' -> Permutation (seg_labels l) (seg_labels l').
Proof.
  intros H. apply NoDup_Permutation; [apply seg_labels_NoDup|apply seg_labels_NoDup|].
  intros x. rewrite !seg_labels_In. split; intros (s & Hs & Hx); exists s; (split; [|exact Hx]).
  - apply (Permutation_in _ H Hs).
  - apply (Permutation_in _ (Permutation_sym H) Hs).
Qed.
Lemma Forall2_perm {A B} (R : A -> B -> Prop) l l' : Permutation l l' -> forall m, Forall2 R l m ->
  exists m', Permutation m m' /\ Forall2 R l' m'.
Proof.
  induction 1; intros m H'.
  - inversion H'; subst. exists []. split; constructor.
  - inversion H'; subst. destruct (IHPermutation _ H4) as (m' & P & F). exists (y :: m'). split; constructor; assumption.
  - inversion H' as [|? b1 ? m1 Ha1 F1]; subst. inversion F1 as [|? b2 ? m2 Ha2 F2]; subst. exists (b2 :: b1 :: m2). split; [apply perm_swap|].
    constructor; [assumption|constructor; assumption].
  - destruct (IHPermutation1 _ H') as (m' & P & F). destruct (IHPermutation2 _ F) as (m'' & P' & F'). exists m''. split; [etransitivity; eassumption|assumption].
Qed.
Lemma Forall2_pair {A B C} (R : A -> B -> Prop) (S : A -> C -> Prop) (T : B -> C -> Prop) :
  (forall a b c, R a b -> S a c -> T b c) -> forall l m n, Forall2 R l m -> Forall2 S l n -> Forall2 T m n.
Proof. intros H l m n F. revert n. induction F; intros n G; inversion G; subst; constructor; eauto. Qed.

Lemma lists_same L1 L2 f1 f2 o1 o2 : Permutation L1 L2 -> (forall l, (f1 l == f2 l)%Q) ->
  lists_of L1 f1 o1 -> lists_of L2 f2 o2 -> same_values o1 o2.
Proof.
  intros HP Hf H1 H2. destruct (Forall2_perm _ _ _ (Permutation_sym HP) _ H2) as (c & Pc & Fc). exists c. split; [exact Pc|].
  refine (Forall2_pair _ _ _ _ _ _ _ H1 Fc). intros l x y [E Q] [E' Q']. split; [congruence|]. rewrite Q, Q'. apply Hf.
Qed.
Lemma rows_same L1 L2 f1 f2 o1 o2 : Permutation L1 L2 -> (forall a l, (f1 a l == f2 a l)%Q) ->
  Forall2 (fun a x => fst x = Some a /\ lists_of L1 (f1 a) (snd x)) L1 o1 ->
  Forall2 (fun a x => fst x = Some a /\ lists_of L2 (f2 a) (snd x)) L2 o2 -> same_rows o1 o2.
Proof.
  intros HP Hf H1 H2. destruct (Forall2_perm _ _ _ (Permutation_sym HP) _ H2) as (c & Pc & Fc). exists c. split; [exact Pc|].
  refine (Forall2_pair _ _ _ _ _ _ _ H1 Fc). intros a x y [E Q] [E' Q']. split; [congruence|]. apply (lists_same L1 L2 (f1 a) (f2 a)); auto.
Qed.
Lemma qsum_perm l l' : Permutation l l' -> (fold_right Qplus 0 l == fold_right Qplus 0 l')%Q.
Proof. induction 1; cbn; [reflexivity|rewrite IHPermutation; reflexivity|ring|rewrite IHPermutation1; assumption]. Qed.
Lemma qsum_ext {A} (f g : A -> Q) l : (forall x, (f x == g x)%Q) -> (fold_right Qplus 0 (map f l) == fold_right Qplus 0 (map g l))%Q.
Proof. intros H. induction l as [|x t IH]; cbn; [reflexivity|]. rewrite IH, H. reflexivity. Qed.
Lemma qmean_perm {A} (f g : A -> Q) l l' : Permutation l l' -> (forall x, (f x == g x)%Q) -> (qmean (map f l) == qmean (map g l'))%Q.
Proof.
  intros HP H. unfold qmean. rewrite !map_length, (Permutation_length HP), (qsum_ext f g l H), (qsum_perm _ _ (Permutation_map g HP)). reflexivity.
Qed.

Lemma report_same ss1 ss2 v r1 r2 : Permutation ss1 ss2 -> report_ok ss1 v (seg_labels ss1) r1 -> report_ok ss2 v (seg_labels ss2) r2 ->
  report_alike r1 r2.
Proof.
  intros HP (A1 & C1 & U1 & G1 & M1 & P1 & R1 & F1 & I1) (A2 & C2 & U2 & G2 & M2 & P2 & R2 & F2 & I2).
  assert (HL := seg_labels_perm _ _ HP).
  split. { rewrite A1, A2. unfold spec_accuracy. rewrite !(vcount_perm _ _ _ _ HP). reflexivity. }
  split.
  { destruct (sr_miou r1) as [m1|], (sr_miou r2) as [m2|]; cbn.
    - destruct M1 as [_ M1], M2 as [_ M2]. rewrite M1, M2. apply (qmean_perm _ _ _ _ HL). intros l. unfold spec_iou. rewrite !(vcount_perm _ _ _ _ HP). reflexivity.
    - destruct M1 as [M1 _]. apply M1. rewrite M2 in HL. apply Permutation_sym, Permutation_nil in HL. exact HL.
    - destruct M2 as [M2 _]. apply M2. rewrite M1 in HL. apply Permutation_nil in HL. exact HL.
    - exact I. }
  split. { apply (rows_same _ _ _ _ _ _ HL) with (3 := C2) (2 := C1). intros a l. unfold spec_iou. rewrite !(vcount_perm _ _ _ _ HP). reflexivity. }
  split. { apply (lists_same _ _ _ _ _ _ HL) with (3 := U2) (2 := U1). intros l. unfold spec_unmatched_pd. rewrite !(vcount_perm _ _ _ _ HP). reflexivity. }
  split. { apply (lists_same _ _ _ _ _ _ HL) with (3 := G2) (2 := G1). intros l. unfold spec_unmatched_gt. rewrite !(vcount_perm _ _ _ _ HP). reflexivity. }
  split. { apply (lists_same _ _ _ _ _ _ HL) with (3 := P2) (2 := P1). intros l. unfold spec_precision. rewrite !(vcount_perm _ _ _ _ HP). reflexivity. }
  split. { apply (lists_same _ _ _ _ _ _ HL) with (3 := R2) (2 := R1). intros l. unfold spec_recall. rewrite !(vcount_perm _ _ _ _ HP). reflexivity. }
  split. { apply (lists_same _ _ _ _ _ _ HL) with (3 := F2) (2 := F1). intros l. unfold spec_f1. rewrite !(vcount_perm _ _ _ _ HP). reflexivity. }
  apply (lists_same _ _ _ _ _ _ HL) with (3 := I2) (2 := I1). intros l. unfold spec_iou. rewrite !(vcount_perm _ _ _ _ HP). reflexivity.
Qed.

Lemma clean_perm (l l' : list segmentation) : Permutation l l' -> Forall clean l -> Forall clean l'.
Proof. intros H F. rewrite Forall_forall in *. intros x Hx. apply F, (Permutation_in _ (Permutation_sym H) Hx). Qed.
Lemma total_perm l l' : Permutation l l' -> total_pixels l = total_pixels l'.
Proof. apply zsum_perm. Qed.

Theorem seg_reorder ss1 ss2 : Permutation ss1 ss2 -> Forall clean ss1 -> countable ss1 ->
  forall v e1 e2 ed1 ed2 sel, obtained ss1 v e1 -> obtained ss2 v e2 -> datum_expr ss1 ed1 sel -> datum_expr ss2 ed2 sel ->
  exists r1 r2, seg_compute e1 ed1 = Some r1 /\ seg_compute e2 ed2 = Some r2 /\ report_alike r1 r2.
Proof.
  intros HP HC HN v e1 e2 ed1 ed2 sel O1 O2 D1 D2.
  assert (HC2 := clean_perm _ _ HP HC). assert (HN2 : countable ss2) by (unfold countable; rewrite <- (total_perm _ _ HP); exact HN).
  destruct (compute_correct ss1 v e1 ed1 sel O1 HC HN D1) as (r1 & E1 & R1).
  destruct (compute_correct ss2 v e2 ed2 sel O2 HC2 HN2 D2) as (r2 & E2 & R2).
  exists r1, r2. split; [exact E1|]. split; [exact E2|]. apply (report_same _ _ _ _ _ HP R1 R2).
Qed.

Theorem seg_reorder_info ss1 ss2 : Permutation ss1 ss2 -> Forall clean ss1 -> countable ss1 ->
  forall v w e1 e2 ed1 eg1 ep1 ed2 eg2 ep2, obtained ss1 v e1 -> obtained ss2 v e2 ->
  datum_expr ss1 ed1 (v_datum w) -> gt_expr ss1 eg1 (v_gt w) -> pd_expr ss1 ep1 (v_pd w) ->
  datum_expr ss2 ed2 (v_datum w) -> gt_expr ss2 eg2 (v_gt w) -> pd_expr ss2 ep2 (v_pd w) ->
  let i1 := seg_info e1 ed1 eg1 ep1 in let i2 := seg_info e2 ed2 eg2 ep2 in
  si_labels i1 = si_labels i2 /\ si_datums i1 = si_datums i2 /\ si_pixels i1 = si_pixels i2 /\
  si_gt_pixels i1 = si_gt_pixels i2 /\ si_pd_pixels i1 = si_pd_pixels i2.
Proof.
  intros HP HC HN v w e1 e2 ed1 eg1 ep1 ed2 eg2 ep2 O1 O2 D1 G1 P1 D2 G2 P2 i1 i2.
  assert (HC2 := clean_perm _ _ HP HC). assert (HN2 : countable ss2) by (unfold countable; rewrite <- (total_perm _ _ HP); exact HN).
  destruct (info_correct ss1 v w e1 ed1 eg1 ep1 O1 HC HN D1 G1 P1) as (L1 & A1 & T1 & X1 & Y1).
  destruct (info_correct ss2 v w e2 ed2 eg2 ep2 O2 HC2 HN2 D2 G2 P2) as (L2 & A2 & T2 & X2 & Y2).
  assert (F := filter_perm (fun s => v_datum v s && v_datum w s) _ _ HP). unfold i1, i2.
  split. { rewrite L1, L2. apply Permutation_length, seg_labels_perm, HP. }
  split. { rewrite A1, A2. apply Permutation_length, F. }
  split. { rewrite T1, T2. apply total_perm, F. }
  split. { rewrite X1, X2. f_equal. apply nsum_perm, F. }
  rewrite Y1, Y2. f_equal. apply nsum_perm, F.
Qed.

(* ------------------------------------------------------------------ *)
Lemma fraction_le a b c : 0 < b -> (fraction a b <= c)%Q <-> (inject_Z (Z.of_nat a) <= c * inject_Z (Z.of_nat b))%Q.
Proof.
  intros Hb. destruct b as [|b]; [lia|]. unfold fraction. assert (H : (0 < inject_Z (Z.of_nat (S b)))%Q) by (unfold Qlt; cbn; lia).
  split; intros X.
  - apply (Qmult_le_r _ _ _ H) in X. rewrite Qmult_comm, Qmult_div_r in X; [exact X|intros E; rewrite E in H; discriminate].
  - apply Qle_shift_div_r; assumption.
Qed.
Lemma fraction_ge a b c : 0 < b -> (c <= fraction a b)%Q <-> (c * inject_Z (Z.of_nat b) <= inject_Z (Z.of_nat a))%Q.
Proof.
  intros Hb. destruct b as [|b]; [lia|]. unfold fraction. assert (H : (0 < inject_Z (Z.of_nat (S b)))%Q) by (unfold Qlt; cbn; lia).
  split; intros X.
  - apply (Qmult_le_r _ _ _ H) in X. rewrite (Qmult_comm (_ / _)), Qmult_div_r in X; [exact X|intros E; rewrite E in H; discriminate].
  - apply Qle_shift_div_l; assumption.
Qed.
Lemma inject_plus a b : (inject_Z (Z.of_nat (a + b)) == inject_Z (Z.of_nat a) + inject_Z (Z.of_nat b))%Q.
Proof. rewrite Nat2Z.inj_add, inject_Z_plus. reflexivity. Qed.
Lemma fraction_times a b : a <= b -> (fraction a b * inject_Z (Z.of_nat b) == inject_Z (Z.of_nat a))%Q.
Proof.
  intros H. destruct b as [|b].
  - assert (a = 0) by lia. subst a. reflexivity.
  - unfold fraction. rewrite Qmult_comm, Qmult_div_r; [reflexivity|]. unfold Qeq. cbn. lia.
Qed.
Lemma between_sym a b q : lies_between a b q -> lies_between b a q.
Proof. intros [H|H]; [right|left]; exact H. Qed.
Lemma fraction_between a1 b1 a2 b2 : a1 <= b1 -> a2 <= b2 ->
  lies_between (fraction a1 b1) (fraction a2 b2) (fraction (a1 + a2) (b1 + b2)).
Proof.
  assert (X : forall a1 b1 a2 b2, a1 <= b1 -> a2 <= b2 -> (fraction a1 b1 <= fraction a2 b2)%Q ->
     (fraction a1 b1 <= fraction (a1 + a2) (b1 + b2) <= fraction a2 b2)%Q).
  { clear. intros a1 b1 a2 b2 H1 H2 H.
    destruct (Nat.eq_dec (b1 + b2) 0) as [Z0|Z0].
    { assert (b1 = 0) by lia. assert (b2 = 0) by lia. subst. assert (a1 = 0) by lia. assert (a2 = 0) by lia. subst. cbn. lra. }
    assert (T1 := fraction_times _ _ H1). assert (T2 := fraction_times _ _ H2).
    assert (N1 : (0 <= inject_Z (Z.of_nat b1))%Q) by (unfold Qle; cbn; lia). assert (N2 : (0 <= inject_Z (Z.of_nat b2))%Q) by (unfold Qle; cbn; lia).
    split; [apply fraction_ge|apply fraction_le]; try lia; rewrite !inject_plus; rewrite <- T1, <- T2; nra. }
  intros H1 H2. destruct (Qlt_le_dec (fraction a2 b2) (fraction a1 b1)) as [L|L].
  - right. rewrite (Nat.add_comm a1), (Nat.add_comm b1). apply X; [assumption|assumption|]. apply Qlt_le_weak, L.
  - left. apply X; assumption.
Qed.

(* ------------------------------------------------------------------ *)
Lemma label_at_In bs p l : label_at bs p = Some l -> In l (map bm_label bs).
Proof.
  unfold label_at. destruct (find (fun b => px b p) bs) as [b|] eqn:E; cbn; [|discriminate].
  intros [= <-]. apply find_some in E. apply in_map, E.
Qed.
Lemma vcount_zero ss v P : (forall s p, In s ss -> P (vgt v s p) (vpd v s p) = false) -> vcount ss v P = 0.
Proof.
  intros H. unfold vcount, npix.
  assert (X : forall l, incl l ss -> list_sum_nat (map (fun s => countb (fun p => P (vgt v s p) (vpd v s p)) (pixels s)) l) = 0).
  { induction l as [|s t IH]; intros I; [reflexivity|]. change (countb (fun p => P (vgt v s p) (vpd v s p)) (pixels s) + list_sum_nat (map (fun s => countb (fun p => P (vgt v s p) (vpd v s p)) (pixels s)) t) = 0).
    rewrite IH; [|intros x Hx; apply I; right; exact Hx]. rewrite Nat.add_0_r. unfold countb.
    assert (E : filter (fun p => P (vgt v s p) (vpd v s p)) (pixels s) = []); [|rewrite E; reflexivity].
    apply filter_none. intros p _. apply H, I. left. reflexivity. }
  apply X. intros x Hx. apply filter_In in Hx. apply Hx.
Qed.
Lemma kept_is f o l : is_label (kept f o) l = true -> o = Some l.
Proof. destruct o as [x|]; cbn; [|discriminate]. destruct (f x); cbn; [|discriminate]. intros H. apply String.eqb_eq in H. congruence. Qed.
Lemma vgt_absent ss v l s p : ~ In l (seg_labels ss) -> In s ss -> is_label (vgt v s p) l = false.
Proof.
  intros N Hs. destruct (is_label (vgt v s p) l) eqn:E; [|reflexivity]. exfalso. apply N, seg_labels_In. exists s. split; [exact Hs|].
  apply kept_is, label_at_In in E. apply in_or_app. left. exact E.
Qed.
Lemma vpd_absent ss v l s p : ~ In l (seg_labels ss) -> In s ss -> is_label (vpd v s p) l = false.
Proof.
  intros N Hs. destruct (is_label (vpd v s p) l) eqn:E; [|reflexivity]. exfalso. apply N, seg_labels_In. exists s. split; [exact Hs|].
  apply kept_is, label_at_In in E. apply in_or_app. right. exact E.
Qed.
Lemma vcount_mono ss v (P Q : option string -> option string -> bool) : (forall g p, P g p = true -> Q g p = true) -> vcount ss v P <= vcount ss v Q.
Proof.
  intros H. unfold vcount, npix. induction (filter (v_datum v) ss) as [|s t IH]; [constructor|].
  change (countb (fun p => P (vgt v s p) (vpd v s p)) (pixels s) + list_sum_nat (map (fun s => countb (fun p => P (vgt v s p) (vpd v s p)) (pixels s)) t)
    <= countb (fun p => Q (vgt v s p) (vpd v s p)) (pixels s) + list_sum_nat (map (fun s => countb (fun p => Q (vgt v s p) (vpd v s p)) (pixels s)) t)).
  apply Nat.add_le_mono; [|exact IH]. unfold countb. induction (pixels s) as [|x u IU]; [constructor|]. cbn [filter].
  destruct (P (vgt v s x) (vpd v s x)) eqn:E; [rewrite (H _ _ E); cbn; lia|]. destruct (Q (vgt v s x) (vpd v s x)); cbn; lia.
Qed.

Lemma lists_value L f out l q : lists_of L f out -> In (Some l, q) out -> In l L /\ (q == f l)%Q.
Proof.
  unfold lists_of. induction 1 as [|a x L out [Ha Hx] F IH]; intros H; [destruct H|]. destruct H as [->|H].
  - cbn in Ha, Hx. injection Ha as <-. split; [left; reflexivity|exact Hx].
  - destruct (IH H) as [A B]. split; [right; exact A|exact B].
Qed.
Lemma lists_unlisted L f out l : lists_of L f out -> unlisted l out -> ~ In l L.
Proof.
  unfold lists_of. induction 1 as [|a x L out [Ha Hx] F IH]; intros N H; [destruct H|]. destruct H as [->|H].
  - apply (N (snd x)). left. destruct x as [n y]. cbn in *. congruence.
  - apply IH; [|exact H]. intros q C. apply (N q). right. exact C.
Qed.
Lemma rows_value L (f : string -> string -> Q) out a row : Forall2 (fun a x => fst x = Some a /\ lists_of L (f a) (snd x)) out row -> forall b r,
  In (Some b, r) row -> a = b -> In b out /\ lists_of L (f b) r.
Proof.
  induction 1 as [|c x out row [Ha Hx] F IH]; intros b r H E; [destruct H|]. destruct H as [->|H].
  - cbn in Ha, Hx. injection Ha as <-. split; [left; reflexivity|exact Hx].
  - destruct (IH b r H E) as [A B]. split; [right; exact A|exact B].
Qed.
Lemma rows_exists L (f : string -> string -> Q) out row a : Forall2 (fun a x => fst x = Some a /\ lists_of L (f a) (snd x)) out row -> In a out ->
  exists r, In (Some a, r) row /\ lists_of L (f a) r.
Proof.
  induction 1 as [|c x out row [Ha Hx] F IH]; intros H; [destruct H|]. destruct H as [->|H].
  - exists (snd x). split; [left; destruct x; cbn in *; congruence|exact Hx].
  - destruct (IH H) as (r & A & B). exists r. split; [right; exact A|exact B].
Qed.
Lemma lists_exists L f out l : lists_of L f out -> In l L -> exists q, In (Some l, q) out.
Proof.
  unfold lists_of. induction 1 as [|a x L out [Ha Hx] F IH]; intros H; [destruct H|]. destruct H as [->|H].
  - exists (snd x). left. destruct x; cbn in *; congruence.
  - destruct (IH H) as (q & A). exists q. right. exact A.
Qed.

(* every listed value is a quotient of additive counts of pixels of the label *)
Record additive (A B : list segmentation -> string -> nat) : Prop := {
  ad_num : forall a b l, A (a ++ b) l = A a l + A b l;
  ad_den : forall a b l, B (a ++ b) l = B a l + B b l;
  ad_le : forall ss l, A ss l <= B ss l;
  ad_none : forall ss l, ~ In l (seg_labels ss) -> A ss l = 0 /\ B ss l = 0
}.
Lemma value_additive v f : In f value_lists -> exists A B, additive A B /\
  (forall ss L rep, report_ok ss v L rep -> lists_of L (fun l => fraction (A ss l) (B ss l)) (f rep)).
Proof.
  assert (Z : forall ss l (P : bool -> bool -> option string -> option string -> bool), ~ In l (seg_labels ss) -> (forall g p, P false false g p = false) ->
    vcount ss v (fun g p => P (is_label g l) (is_label p l) g p) = 0).
  { intros ss l P N H. apply vcount_zero. intros s p Hs. cbv beta. rewrite (vgt_absent ss v l s p N Hs), (vpd_absent ss v l s p N Hs). apply H. }
  intros Hf. cbn in Hf. destruct Hf as [<-|[<-|[<-|[<-|[<-|[<-|[]]]]]]].
  - exists (fun ss l => vcount ss v (fun g p => is_label g l && is_label p l)), (fun ss l => vcount ss v (fun _ p => is_label p l)).
    split; [constructor|intros ss L rep (_ & _ & _ & _ & _ & H & _); exact H].
    + intros a b l. apply vcount_app.
    + intros a b l. apply vcount_app.
    + intros ss l. apply vcount_mono. intros g p H. apply andb_true_iff in H. apply H.
    + intros ss l N. split; [apply (Z ss l (fun x y _ _ => x && y) N)|apply (Z ss l (fun x y _ _ => y) N)]; reflexivity.
  - exists (fun ss l => vcount ss v (fun g p => is_label g l && is_label p l)), (fun ss l => vcount ss v (fun g _ => is_label g l)).
    split; [constructor|intros ss L rep (_ & _ & _ & _ & _ & _ & H & _); exact H].
    + intros a b l. apply vcount_app.
    + intros a b l. apply vcount_app.
    + intros ss l. apply vcount_mono. intros g p H. apply andb_true_iff in H. apply H.
    + intros ss l N. split; [apply (Z ss l (fun x y _ _ => x && y) N)|apply (Z ss l (fun x y _ _ => x) N)]; reflexivity.
  - exists (fun ss l => 2 * vcount ss v (fun g p => is_label g l && is_label p l)),
           (fun ss l => vcount ss v (fun g _ => is_label g l) + vcount ss v (fun _ p => is_label p l)).
    split; [constructor|intros ss L rep (_ & _ & _ & _ & _ & _ & _ & H & _); exact H].
    + intros a b l. rewrite vcount_app. lia.
    + intros a b l. rewrite !vcount_app. lia.
    + intros ss l. assert (X : vcount ss v (fun g p => is_label g l && is_label p l) <= vcount ss v (fun g _ => is_label g l)).
      { apply vcount_mono. intros g p H. apply andb_true_iff in H. apply H. }
      assert (Y : vcount ss v (fun g p => is_label g l && is_label p l) <= vcount ss v (fun _ p => is_label p l)).
      { apply vcount_mono. intros g p H. apply andb_true_iff in H. apply H. }
      lia.
    + intros ss l N. rewrite (Z ss l (fun x y _ _ => x && y) N), (Z ss l (fun x y _ _ => x) N), (Z ss l (fun x y _ _ => y) N) by reflexivity. split; reflexivity.
  - exists (fun ss l => vcount ss v (fun g p => is_label g l && is_label p l)), (fun ss l => vcount ss v (fun g p => is_label g l || is_label p l)).
    split; [constructor|intros ss L rep (_ & _ & _ & _ & _ & _ & _ & _ & H); exact H].
    + intros a b l. apply vcount_app.
    + intros a b l. apply vcount_app.
    + intros ss l. apply vcount_mono. intros g p H. apply andb_true_iff in H. destruct H as [-> _]. reflexivity.
    + intros ss l N. split; [apply (Z ss l (fun x y _ _ => x && y) N)|apply (Z ss l (fun x y _ _ => x || y) N)]; reflexivity.
  - exists (fun ss l => vcount ss v (fun g p => same g None && is_label p l)), (fun ss l => vcount ss v (fun _ p => is_label p l)).
    split; [constructor|intros ss L rep (_ & _ & H & _); exact H].
    + intros a b l. apply vcount_app.
    + intros a b l. apply vcount_app.
    + intros ss l. apply vcount_mono. intros g p H. apply andb_true_iff in H. apply H.
    + intros ss l N. split; [apply (Z ss l (fun x y g _ => same g None && y) N)|apply (Z ss l (fun x y _ _ => y) N)]; [|reflexivity].
      intros g p. apply andb_false_r.
  - exists (fun ss l => vcount ss v (fun g p => is_label g l && same p None)), (fun ss l => vcount ss v (fun g _ => is_label g l)).
    split; [constructor|intros ss L rep (_ & _ & _ & H & _); exact H].
    + intros a b l. apply vcount_app.
    + intros a b l. apply vcount_app.
    + intros ss l. apply vcount_mono. intros g p H. apply andb_true_iff in H. apply H.
    + intros ss l N. split; [apply (Z ss l (fun x y _ p => x && same p None) N)|apply (Z ss l (fun x y _ _ => x) N)]; reflexivity.
Qed.
Lemma between_eq a b q a' b' q' : (a == a')%Q -> (b == b')%Q -> (q == q')%Q -> lies_between a b q -> lies_between a' b' q'.
Proof. intros Ea Eb Eq [H|H]; [left|right]; rewrite <- Ea, <- Eb, <- Eq; exact H. Qed.

Section Parts.
  Variables (ss1 ss2 : list segmentation).
  Hypothesis HC : Forall clean (ss1 ++ ss2).
  Hypothesis HN : countable (ss1 ++ ss2).
  Variables (v : view) (e1 e2 e : seval) (ed1 ed2 ed : expr) (sel : segmentation -> bool).
  Hypotheses (O1 : obtained ss1 v e1) (O2 : obtained ss2 v e2) (O : obtained (ss1 ++ ss2) v e).
  Hypotheses (D1 : datum_expr ss1 ed1 sel) (D2 : datum_expr ss2 ed2 sel) (D : datum_expr (ss1 ++ ss2) ed sel).

  Lemma parts_ok : Forall clean ss1 /\ Forall clean ss2 /\ countable ss1 /\ countable ss2.
  Proof.
    apply Forall_app in HC. destruct HC as [C1 C2]. split; [exact C1|]. split; [exact C2|].
    unfold countable in *. rewrite total_app in HN.
    assert (P : forall l, Forall clean l -> (0 <= total_pixels l)%Z).
    { clear. unfold total_pixels, zsum. induction 1 as [|s t [[H _] _] _ IH]; cbn [map fold_right]; lia. }
    assert (P1 := P _ C1). assert (P2 := P _ C2). lia.
  Qed.
  Lemma parts_reports : exists r1 r2 r, seg_compute e1 ed1 = Some r1 /\ seg_compute e2 ed2 = Some r2 /\ seg_compute e ed = Some r /\
    report_ok ss1 (with_datums v sel) (seg_labels ss1) r1 /\ report_ok ss2 (with_datums v sel) (seg_labels ss2) r2 /\
    report_ok (ss1 ++ ss2) (with_datums v sel) (seg_labels (ss1 ++ ss2)) r.
  Proof.
    destruct parts_ok as (C1 & C2 & N1 & N2).
    destruct (compute_correct ss1 v e1 ed1 sel O1 C1 N1 D1) as (r1 & E1 & R1).
    destruct (compute_correct ss2 v e2 ed2 sel O2 C2 N2 D2) as (r2 & E2 & R2).
    destruct (compute_correct _ v e ed sel O HC HN D) as (r & E & R). exists r1, r2, r. auto 10.
  Qed.

  Lemma cell_value ss L r w a b q : L = seg_labels ss -> report_ok ss w L r -> cell r a b q -> (q == spec_iou ss w a b)%Q.
  Proof.
    intros EL (_ & H & _) [(row & Hr & Hq)|[Hn ->]].
    - destruct (rows_value _ _ _ a _ H a row Hr eq_refl) as [_ Hl]. apply (lists_value _ _ _ _ _ Hl Hq).
    - unfold spec_iou. destruct (in_dec string_dec a L) as [Ia|Ia].
      + destruct (in_dec string_dec b L) as [Ib|Ib].
        * exfalso. destruct (rows_exists _ _ _ _ a H Ia) as (row & Hr & Hl). destruct (lists_exists _ _ _ b Hl Ib) as (x & Hx). exact (Hn row x Hr Hx).
        * rewrite (vcount_zero ss w (fun g p => is_label g a && is_label p b)).
          -- destruct (vcount ss w _); reflexivity.
          -- intros s p Hs. subst L. rewrite (vpd_absent ss w b s p Ib Hs). apply andb_false_r.
      + rewrite (vcount_zero ss w (fun g p => is_label g a && is_label p b)).
        * destruct (vcount ss w _); reflexivity.
        * intros s p Hs. subst L. rewrite (vgt_absent ss w a s p Ia Hs). reflexivity.
  Qed.
  Lemma seg_total_pixels ss x xd : obtained ss v x -> Forall clean ss -> countable ss -> datum_expr ss xd sel ->
    si_pixels (seg_info x xd None None) = Z.of_nat (vcount ss (with_datums v sel) (fun _ _ => true)).
  Proof.
    intros Ox Cx Nx Dx. destruct (info_correct ss v (MkView sel (fun _ _ => true) (fun _ _ => true)) x xd None None Ox Cx Nx Dx) as (_ & _ & T & _).
    - intros r k s l _ _ _ _ _. reflexivity.
    - intros r k s l _ _ _ _ _. reflexivity.
    - rewrite T. unfold vcount, npix, total_pixels. cbn [v_datum with_datums].
      assert (C : Forall clean (filter (fun s => v_datum v s && sel s) ss)).
      { rewrite Forall_forall in *. intros s Hs. apply Cx. apply filter_In in Hs. apply Hs. }
      induction C as [|s t [[Hs _] _] _ IH]; [reflexivity|].
      change (zsum (map sg_size (s :: t))) with (sg_size s + zsum (map sg_size t))%Z.
      change (list_sum_nat (map (fun s0 => countb (fun _ => true) (pixels s0)) (s :: t)))
        with (countb (fun _ => true) (pixels s) + list_sum_nat (map (fun s0 => countb (fun _ => true) (pixels s0)) t)).
      rewrite Nat2Z.inj_add, IH. f_equal. unfold countb. rewrite filter_all by reflexivity. unfold pixels. rewrite seq_length. lia.
  Qed.

  Theorem seg_parts : exists r1 r2 r, seg_compute e1 ed1 = Some r1 /\ seg_compute e2 ed2 = Some r2 /\ seg_compute e ed = Some r /\
    (let n1 := inject_Z (si_pixels (seg_info e1 ed1 None None)) in let n2 := inject_Z (si_pixels (seg_info e2 ed2 None None)) in
     sr_accuracy r * (n1 + n2) == sr_accuracy r1 * n1 + sr_accuracy r2 * n2)%Q /\
    (forall f, In f value_lists -> forall l q, In (Some l, q) (f r) ->
       (forall q1 q2, In (Some l, q1) (f r1) -> In (Some l, q2) (f r2) -> lies_between q1 q2 q) /\
       (forall q1, In (Some l, q1) (f r1) -> unlisted l (f r2) -> (q == q1)%Q) /\
       (forall q2, unlisted l (f r1) -> In (Some l, q2) (f r2) -> (q == q2)%Q) /\
       ~ (unlisted l (f r1) /\ unlisted l (f r2))) /\
    (forall a b q q1 q2, cell r a b q -> cell r1 a b q1 -> cell r2 a b q2 -> lies_between q1 q2 q).
  Proof.
    destruct parts_reports as (r1 & r2 & r & E1 & E2 & E & R1 & R2 & R). destruct parts_ok as (C1 & C2 & N1 & N2).
    exists r1, r2, r. split; [exact E1|]. split; [exact E2|]. split; [exact E|]. split; [|split].
    - cbv zeta. rewrite (seg_total_pixels ss1 e1 ed1 O1 C1 N1 D1), (seg_total_pixels ss2 e2 ed2 O2 C2 N2 D2).
      destruct R1 as (A1 & _), R2 as (A2 & _), R as (A & _). rewrite A, A1, A2. unfold spec_accuracy. set (w := with_datums v sel).
      assert (M : forall ss, vcount ss w same <= vcount ss w (fun _ _ => true)) by (intros ss; apply vcount_mono; reflexivity).
      rewrite (fraction_times _ _ (M ss1)), (fraction_times _ _ (M ss2)), <- !inject_plus, <- !vcount_app. apply (fraction_times _ _ (M (ss1 ++ ss2))).
    - intros f Hf l q Hq. destruct (value_additive (with_datums v sel) f Hf) as (A & B & HA & HL).
      destruct (lists_value _ _ _ _ _ (HL _ _ _ R) Hq) as [Il Eq]. rewrite (ad_num _ _ HA), (ad_den _ _ HA) in Eq. split; [|split; [|split]].
      + intros q1 q2 H1 H2. destruct (lists_value _ _ _ _ _ (HL _ _ _ R1) H1) as [_ Q1]. destruct (lists_value _ _ _ _ _ (HL _ _ _ R2) H2) as [_ Q2].
        apply (between_eq _ _ _ _ _ _ (Qeq_sym _ _ Q1) (Qeq_sym _ _ Q2) (Qeq_sym _ _ Eq)). apply fraction_between; apply (ad_le _ _ HA).
      + intros q1 H1 U. destruct (lists_value _ _ _ _ _ (HL _ _ _ R1) H1) as [_ Q1].
        destruct (ad_none _ _ HA ss2 l (lists_unlisted _ _ _ _ (HL _ _ _ R2) U)) as [Z1 Z2]. rewrite Eq, Q1, Z1, Z2, !Nat.add_0_r. reflexivity.
      + intros q2 U H2. destruct (lists_value _ _ _ _ _ (HL _ _ _ R2) H2) as [_ Q2].
        destruct (ad_none _ _ HA ss1 l (lists_unlisted _ _ _ _ (HL _ _ _ R1) U)) as [Z1 Z2]. rewrite Eq, Q2, Z1, Z2. reflexivity.
      + intros [U1 U2]. apply seg_labels_In in Il. destruct Il as (s & Hs & Hl). apply in_app_or in Hs. destruct Hs as [Hs|Hs].
        * apply (lists_unlisted _ _ _ _ (HL _ _ _ R1) U1), seg_labels_In. eauto.
        * apply (lists_unlisted _ _ _ _ (HL _ _ _ R2) U2), seg_labels_In. eauto.
    - intros a b q q1 q2 H H1 H2. apply (cell_value _ _ _ _ _ _ _ eq_refl R) in H. apply (cell_value _ _ _ _ _ _ _ eq_refl R1) in H1.
      apply (cell_value _ _ _ _ _ _ _ eq_refl R2) in H2. apply (between_eq _ _ _ _ _ _ (Qeq_sym _ _ H1) (Qeq_sym _ _ H2) (Qeq_sym _ _ H)).
      unfold spec_iou. rewrite !vcount_app. apply fraction_between; apply vcount_mono; intros g p X; apply andb_true_iff in X; destruct X as [-> _]; reflexivity.
  Qed.
End Parts.

Theorem seg_parts_info ss1 ss2 : Forall clean (ss1 ++ ss2) -> countable (ss1 ++ ss2) ->
  forall v w e1 e2 e ed1 eg1 ep1 ed2 eg2 ep2 ed eg ep, obtained ss1 v e1 -> obtained ss2 v e2 -> obtained (ss1 ++ ss2) v e ->
  datum_expr ss1 ed1 (v_datum w) -> gt_expr ss1 eg1 (v_gt w) -> pd_expr ss1 ep1 (v_pd w) ->
  datum_expr ss2 ed2 (v_datum w) -> gt_expr ss2 eg2 (v_gt w) -> pd_expr ss2 ep2 (v_pd w) ->
  datum_expr (ss1 ++ ss2) ed (v_datum w) -> gt_expr (ss1 ++ ss2) eg (v_gt w) -> pd_expr (ss1 ++ ss2) ep (v_pd w) ->
  let i1 := seg_info e1 ed1 eg1 ep1 in let i2 := seg_info e2 ed2 eg2 ep2 in let i := seg_info e ed eg ep in
  si_datums i = si_datums i1 + si_datums i2 /\ si_pixels i = (si_pixels i1 + si_pixels i2)%Z /\
  si_gt_pixels i = (si_gt_pixels i1 + si_gt_pixels i2)%Z /\ si_pd_pixels i = (si_pd_pixels i1 + si_pd_pixels i2)%Z.
Proof.
  intros HC HN v w e1 e2 e ed1 eg1 ep1 ed2 eg2 ep2 ed eg ep O1 O2 O D1 G1 P1 D2 G2 P2 D G P i1 i2 i.
  destruct (parts_ok ss1 ss2 HC HN) as (C1 & C2 & N1 & N2).
  destruct (info_correct ss1 v w e1 ed1 eg1 ep1 O1 C1 N1 D1 G1 P1) as (_ & A1 & T1 & X1 & Y1).
  destruct (info_correct ss2 v w e2 ed2 eg2 ep2 O2 C2 N2 D2 G2 P2) as (_ & A2 & T2 & X2 & Y2).
  destruct (info_correct _ v w e ed eg ep O HC HN D G P) as (_ & A & T & X & Y). unfold i, i1, i2.
  rewrite A, A1, A2, T, T1, T2, X, X1, X2, Y, Y1, Y2, !filter_app, app_length, total_app, !npix_app, !Nat2Z.inj_add. auto.
Qed.
