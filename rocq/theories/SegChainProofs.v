(* Chains of filters of segmentation evaluators. *)
From Verif Require Import Prelude Counting CacheModel CacheSpec ClsModel ClsSpec FlowModel DetFlowModel
  SegModel SegSpec SegPixelProofs SegProofs SegStoreProofs SegLabelProofs SegFlowProofs SegMetricProofs SegInfoProofs SegMore ClsOrderProofs SegChainSpec.
From Coq Require Import QArith String Lia.
Local Open Scope nat_scope.
Local Open Scope list_scope.

Lemma lists_same L f g out : (forall l, f l = g l) -> lists_of L f out -> lists_of L g out.
Proof. intros E H. induction H as [|l x L out (A & B) H IH]; constructor; [|exact IH]. split; [exact A|]. rewrite <- E. exact B. Qed.
Lemma forall2_weaken {A B} (P Q : A -> B -> Prop) l m : (forall a b, P a b -> Q a b) -> Forall2 P l m -> Forall2 Q l m.
Proof. intros E H. induction H; constructor; auto. Qed.
Lemma qmean_same (f g : string -> Q) L : (forall l, f l = g l) -> qmean (map f L) = qmean (map g L).
Proof. intros E. f_equal. apply map_ext. exact E. Qed.
Lemma report_view ss u1 u2 L rep : same_view ss u1 u2 -> report_ok ss u1 L rep -> report_ok ss u2 L rep.
Proof.
  intros S. assert (V : forall P, vcount ss u1 P = vcount ss u2 P) by (intros P; apply vcount_same; exact S).
  assert (I : forall a b, spec_iou ss u1 a b = spec_iou ss u2 a b) by (intros; unfold spec_iou; rewrite !V; reflexivity).
  intros (H1 & H2 & H3 & H4 & H5 & H6 & H7 & H8 & H9). unfold report_ok.
  split; [|split; [|split; [|split; [|split; [|split; [|split; [|split]]]]]]].
  - unfold spec_accuracy in *. rewrite <- !V. exact H1.
  - revert H2. apply forall2_weaken. intros a x (A & B). split; [exact A|]. revert B. apply lists_same. apply I.
  - revert H3. apply lists_same. intros l. unfold spec_unmatched_pd. rewrite !V. reflexivity.
  - revert H4. apply lists_same. intros l. unfold spec_unmatched_gt. rewrite !V. reflexivity.
  - destruct (sr_miou rep); [|exact H5]. destruct H5 as (A & B). split; [exact A|]. rewrite B.
    rewrite (qmean_same (fun l => spec_iou ss u1 l l) (fun l => spec_iou ss u2 l l) L (fun l => I l l)). reflexivity.
  - revert H6. apply lists_same. intros l. unfold spec_precision. rewrite !V. reflexivity.
  - revert H7. apply lists_same. intros l. unfold spec_recall. rewrite !V. reflexivity.
  - revert H8. apply lists_same. intros l. unfold spec_f1. rewrite !V. reflexivity.
  - revert H9. apply lists_same. intros l. apply I.
Qed.
Lemma info_view ss u1 u2 w i : same_view ss u1 u2 -> info_ok ss u1 w i -> info_ok ss u2 w i.
Proof.
  intros S (H1 & H2 & H3 & H4 & H5). unfold info_ok. cbv zeta.
  assert (E : filter (fun s => v_datum u1 s && v_datum w s) ss = filter (fun s => v_datum u2 s && v_datum w s) ss).
  { apply filter_ext_in. intros s Hs. rewrite (proj1 (S s Hs)). reflexivity. }
  rewrite <- E. split; [exact H1|]. split; [exact H2|]. split; [exact H3|]. split.
  - rewrite H4. f_equal. apply npix_ext. intros s p Hs _. apply filter_In in Hs. destruct Hs as [Hs _]. unfold vgt, kept. destruct (gt_at s p) as [l|]; [|reflexivity].
    rewrite (proj1 (proj2 (S s Hs) l)). reflexivity.
  - rewrite H5. f_equal. apply npix_ext. intros s p Hs _. apply filter_In in Hs. destruct Hs as [Hs _]. unfold vpd, kept. destruct (pd_at s p) as [l|]; [|reflexivity].
    rewrite (proj2 (proj2 (S s Hs) l)). reflexivity.
Qed.

Section Chain.
  Variable ss : list segmentation.
  Hypothesis Hc : Forall clean ss.

  Lemma sview_trans w1 w2 w3 : same_view ss w1 w2 -> same_view ss w2 w3 -> same_view ss w1 w3.
  Proof.
    intros A B s Hs. destruct (A s Hs) as (A1 & A2), (B s Hs) as (B1 & B2). split; [congruence|]. intros l. destruct (A2 l), (B2 l). split; congruence.
  Qed.
  Lemma sview_sym w1 w2 : same_view ss w1 w2 -> same_view ss w2 w1.
  Proof. intros A s Hs. destruct (A s Hs) as (A1 & A2). split; [congruence|]. intros l. destruct (A2 l). split; congruence. Qed.
  Lemma sstep_remains v z zs : same_view ss (sremains (and_view v (z_view z)) zs) (sremains v (z :: zs)).
  Proof. intros s _. cbn. split; [rewrite andb_assoc; reflexivity|]. intros l. rewrite !andb_assoc. auto. Qed.
  Lemma scall_outcome v e z r : sargs_ok ss z -> obtained ss v e -> seg_call e z r ->
    (r = EmptyCache /\ forall s, In s ss -> v_datum (and_view v (z_view z)) s = false)
    \/ (exists e', r = Done e' /\ obtained ss (and_view v (z_view z)) e' /\ exists s, In s ss /\ v_datum (and_view v (z_view z)) s = true).
  Proof.
    intros (H1 & H2 & H3) He [bs|bs rpf].
    - destruct (filter_empty ss v e bs 0 _ _ _ _ He Hc H1 H2 H3 _ (or_introl eq_refl)) as [X|((e' & X) & Y)]; [left; exact X|right].
      exists e'. split; [exact X|]. split; [eapply ob_filter_memory; eassumption|exact Y].
    - destruct (filter_empty ss v e bs rpf _ _ _ _ He Hc H1 H2 H3 _ (or_intror eq_refl)) as [X|((e' & X) & Y)]; [left; exact X|right].
      exists e'. split; [exact X|]. split; [eapply ob_filter_files; eassumption|exact Y].
  Qed.
  Lemma scalls_outcome e zs r : seg_calls e zs r -> forall v, Forall (sargs_ok ss) zs -> obtained ss v e ->
    (r = EmptyCache /\ forall s, In s ss -> v_datum (sremains v zs) s = false)
    \/ (exists e' w, r = Done e' /\ obtained ss w e' /\ same_view ss w (sremains v zs) /\
          (zs = [] \/ exists s, In s ss /\ v_datum (sremains v zs) s = true)).
  Proof.
    induction 1 as [e|e z zs r Hz Hr|e z zs e1 r Hz Hzs IH]; intros v Hok He.
    - right. exists e, v. split; [reflexivity|]. split; [exact He|]. split; [|left; reflexivity]. intros s _. cbn. rewrite andb_true_r. split; [reflexivity|]. intros l. rewrite !andb_true_r. auto.
    - left. inversion_clear Hok. destruct (scall_outcome v e z r ltac:(assumption) He Hz) as [[-> E]|(e' & -> & _)]; [|exfalso; apply (Hr e'); reflexivity].
      split; [reflexivity|]. intros s Hs. rewrite <- (proj1 (sstep_remains v z zs s Hs)). cbn. specialize (E s Hs). cbn in E. rewrite E. reflexivity.
    - inversion_clear Hok. destruct (scall_outcome v e z _ ltac:(assumption) He Hz) as [[E _]|(e' & E & He' & N)]; [discriminate|]. injection E as <-.
      destruct (IH _ ltac:(assumption) He') as [[-> F]|(e2 & w2 & -> & He2 & F & X)].
      + left. split; [reflexivity|]. intros s Hs. rewrite <- (proj1 (sstep_remains v z zs s Hs)). apply F; assumption.
      + right. exists e2, w2. split; [reflexivity|]. split; [exact He2|]. split; [apply (sview_trans _ _ _ F (sstep_remains v z zs))|]. right.
        destruct X as [->|(s & Hs & X)].
        * destruct N as (s & Hs & N). exists s. split; [exact Hs|]. cbn in *. rewrite andb_true_r. exact N.
        * exists s. split; [exact Hs|]. rewrite <- (proj1 (sstep_remains v z zs s Hs)). exact X.
  Qed.

  Theorem seg_chains_agree v e1 e2 xs ys r1 r2 : countable ss -> Forall (sargs_ok ss) xs -> Forall (sargs_ok ss) ys -> (xs = [] <-> ys = []) ->
    obtained ss v e1 -> obtained ss v e2 -> seg_calls e1 xs r1 -> seg_calls e2 ys r2 -> same_view ss (sremains v ys) (sremains v xs) ->
    (r1 = EmptyCache /\ r2 = EmptyCache /\ forall s, In s ss -> v_datum (sremains v xs) s = false)
    \/ (exists f1 f2, r1 = Done f1 /\ r2 = Done f2 /\ same_seg_reports ss (sremains v xs) f1 f2).
  Proof.
    intros Hn Hx Hy Hxy He1 He2 R1 R2 S.
    destruct (scalls_outcome _ _ _ R1 v Hx He1) as [[-> E1]|(f1 & w1 & -> & F1 & V1 & N1)];
    destruct (scalls_outcome _ _ _ R2 v Hy He2) as [[-> E2]|(f2 & w2 & -> & F2 & V2 & N2)].
    - left. auto.
    - exfalso. destruct N2 as [N2|(s & Hs & N2)].
      + apply Hxy in N2. subst xs. inversion R1.
      + rewrite (proj1 (S s Hs)), (E1 s Hs) in N2. discriminate.
    - exfalso. destruct N1 as [N1|(s & Hs & N1)].
      + apply Hxy in N1. subst ys. inversion R2.
      + rewrite <- (proj1 (S s Hs)), (E2 s Hs) in N1. discriminate.
    - right. exists f1, f2. split; [reflexivity|]. split; [reflexivity|].
      assert (V2' := sview_trans _ _ _ V2 S). assert (V := sview_trans _ _ _ V1 (sview_sym _ _ V2')). split.
      + intros ed sel H. split.
        * apply (same_report ss w1 w2 f1 f2 ed ed sel sel F1 F2 Hc Hn H H). intros s Hs. destruct (V s Hs) as (A & B). cbn. rewrite A. split; [reflexivity|exact B].
        * destruct (compute_correct ss w1 f1 ed sel F1 Hc Hn H) as (rep & A & B). exists rep. split; [exact A|].
          apply (report_view ss (with_datums w1 sel)); [|exact B]. intros s Hs. destruct (V1 s Hs) as (C & D). cbn [with_datums v_datum v_gt v_pd]. rewrite C. split; [reflexivity|exact D].
      + intros ed eg ep w A B C. split; eapply info_view; [exact V1| |exact V2'|]; eapply info_correct; eassumption.
  Qed.
End Chain.

Theorem seg_any_order ss v e1 e2 xs ys r1 r2 : Forall clean ss -> countable ss -> Forall (sargs_ok ss) xs -> Permutation xs ys ->
  obtained ss v e1 -> obtained ss v e2 -> seg_calls e1 xs r1 -> seg_calls e2 ys r2 ->
  (r1 = EmptyCache /\ r2 = EmptyCache /\ forall s, In s ss -> v_datum (sremains v xs) s = false)
  \/ (exists f1 f2, r1 = Done f1 /\ r2 = Done f2 /\ same_seg_reports ss (sremains v xs) f1 f2).
Proof.
  intros Hc Hn Hx P He1 He2 R1 R2. apply (seg_chains_agree ss Hc v e1 e2 xs ys r1 r2); try assumption.
  - apply Forall_forall. intros y Hy. rewrite Forall_forall in Hx. apply Hx. apply (Permutation_in y (Permutation_sym P) Hy).
  - split; intros ->; [apply Permutation_nil in P; exact P|]. apply Permutation_sym, Permutation_nil in P. exact P.
  - intros s _. cbn. split; [rewrite (forallb_perm _ _ _ P); reflexivity|]. intros l. split; rewrite (forallb_perm _ _ _ P); reflexivity.
Qed.
Lemma stogether_ok ss zs : Forall (sargs_ok ss) zs -> sargs_ok ss (stogether zs).
Proof.
  intros H. rewrite Forall_forall in H. split; [|split].
  - intros r k s H1 H2 H3 H4. cbn. apply forallb_same. intros z Hz. apply (proj1 (H z Hz) r k s H1 H2 H3 H4).
  - intros r k s l H1 H2 H3 H4 H5. cbn. apply forallb_same. intros z Hz. apply (proj1 (proj2 (H z Hz)) r k s l H1 H2 H3 H4 H5).
  - intros r k s l H1 H2 H3 H4 H5. cbn. apply forallb_same. intros z Hz. apply (proj2 (proj2 (H z Hz)) r k s l H1 H2 H3 H4 H5).
Qed.
Theorem seg_in_one_call ss v e1 e2 xs r1 r2 : Forall clean ss -> countable ss -> Forall (sargs_ok ss) xs -> xs <> [] ->
  obtained ss v e1 -> obtained ss v e2 -> seg_calls e1 xs r1 -> seg_call e2 (stogether xs) r2 ->
  (r1 = EmptyCache /\ r2 = EmptyCache /\ forall s, In s ss -> v_datum (sremains v xs) s = false)
  \/ (exists f1 f2, r1 = Done f1 /\ r2 = Done f2 /\ same_seg_reports ss (sremains v xs) f1 f2).
Proof.
  intros Hc Hn Hx Hne He1 He2 R1 R2. pose proof (stogether_ok ss xs Hx) as HT.
  apply (seg_chains_agree ss Hc v e1 e2 xs [stogether xs] r1 r2); try assumption.
  - constructor; [exact HT|constructor].
  - split; [contradiction|discriminate].
  - destruct (scall_outcome ss Hc v e2 _ r2 HT He2 R2) as [[-> _]|(e' & -> & _)].
    + apply scalls_raise; [exact R2|discriminate].
    + eapply scalls_cons; [exact R2|constructor].
  - intros s _. cbn. rewrite !andb_true_r. split; [reflexivity|]. intros l. rewrite !andb_true_r. auto.
Qed.
