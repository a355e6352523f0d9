(* Lemmas for C148, semantic segmentation. *)
From Verif Require Import Prelude Counting CacheModel CacheSpec ClsModel ClsSpec FlowModel DetFlowModel SegModel SegSpec SegMore
  SegPerfectSpec SegPerfectProofs SegZeroProofs MeanExtremeProofs.
From Verif Require DetModel.
From Coq Require Import QArith Lqa String.
Local Open Scope nat_scope.
Local Open Scope list_scope.

Lemma lists_entry L f out l : lists_of L f out -> In l L -> exists q, In (Some l, q) out /\ (q == f l)%Q.
Proof.
  intros H. induction H as [|a x L out [Hx1 Hx2] Hr IH]; [intros []|]. intros [->|Hl].
  - exists (snd x). split; [|exact Hx2]. left. destruct x. cbn in *. congruence.
  - destruct (IH Hl) as (q & Hq & E). exists q. split; [right|]; assumption.
Qed.
Lemma same_qmean l : l <> [] -> DetModel.qmean l = Some (qmean l).
Proof. destruct l; [contradiction|]. reflexivity. Qed.

Theorem mean_iou_extremes ss v e ed sel r m : Forall clean ss -> countable ss -> obtained ss v e -> datum_expr ss ed sel ->
  seg_compute e ed = Some r -> sr_miou r = Some m ->
  let u := with_datums v sel in
  ((m == 1)%Q <-> forall l, In l (seg_labels ss) -> alike ss u l) /\
  ((m == 0)%Q <-> forall l, In l (seg_labels ss) -> forall s p, vpixel ss u s p -> ~ (vgt u s p = Some l /\ vpd u s p = Some l)) /\
  (forall l, In l (seg_labels ss) -> (forall s p, vpixel ss u s p -> vgt u s p <> Some l) -> (0 <= m)%Q /\ (m < 1)%Q).
Proof.
  intros Hc Hk Ho Hd Hr Hm u. assert (R := seg_perfect ss v e ed sel r Hc Hk Ho Hd Hr). fold u in R.
  destruct (scores_one ss u _ r R) as (_ & _ & _ & _ & One). destruct (scores_zero ss u _ r R) as (_ & _ & _ & _ & Zero).
  destruct R as (_ & _ & _ & _ & HM & _ & _ & _ & HI). rewrite Hm in HM. destruct HM as (HN & E).
  set (f := fun l => spec_iou ss u l l) in *. set (L := seg_labels ss) in *.
  assert (F1 : forall l, In l L -> (f l == 1)%Q <-> alike ss u l).
  { intros l Hl. destruct (lists_entry L f _ l HI Hl) as (q & Hq & Eq). rewrite <- Eq. apply One. exact Hq. }
  assert (F0 : forall l, In l L -> (f l == 0)%Q <-> forall s p, vpixel ss u s p -> ~ (vgt u s p = Some l /\ vpd u s p = Some l)).
  { intros l Hl. destruct (lists_entry L f _ l HI Hl) as (q & Hq & Eq). rewrite <- Eq. apply (Zero l q Hq). }
  assert (N : map f L <> []) by (intros X; apply map_eq_nil in X; contradiction).
  assert (B : forall x, In x (map f L) -> (0 <= x <= 1)%Q).
  { intros x Hx. apply in_map_iff in Hx. destruct Hx as (l & <- & _). apply spec_ranges. }
  destruct (qmean_extremes (map f L) (qmean (map f L)) B (same_qmean _ N)) as [X1 X0].
  assert (M1 : (m == 1)%Q <-> forall l, In l L -> alike ss u l).
  { rewrite E, X1, (in_map_all f L (fun x => (x == 1)%Q)). split; intros H l Hl; apply (F1 l Hl), H, Hl. }
  split; [exact M1|]. split.
  { rewrite E, X0, (in_map_all f L (fun x => (x == 0)%Q)). split; intros H l Hl; apply (F0 l Hl), H, Hl. }
  intros l Hl Hno. assert (P : (0 <= m <= 1)%Q).
  { rewrite E. apply qmean_range; [exact N|]. apply Forall_forall. exact B. }
  destruct P as [P0 P1]. split; [exact P0|]. apply Qle_lteq in P1. destruct P1 as [P1|P1]; [exact P1|]. exfalso.
  destruct (proj1 M1 P1 l Hl) as ((s & p & Hp & Hg) & _). apply (Hno s p Hp Hg).
Qed.
