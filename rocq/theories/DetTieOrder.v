(* Object detection: the order of rows that compare a prediction with two ground truths
   it overlaps equally; it survives storing, sorting and filtering. *)
From Verif Require Import Prelude Counting CacheModel CacheSpec CacheProofs SortProofs ClsModel FlowModel
  DetModel DetSpec DetRankProofs DetLoaderProofs DetStoreProofs DetFlowModel DetLocalProofs DetConfProofs DetMatchingProofs DetConfOrder DetExModel DetExampleProofs DetMain DetOrderProofs DetReportModel DetEnd DetMore DetImage DetPick.
From Coq Require Import Lia.
From Coq Require String.
Local Open Scope nat_scope.
Local Open Scope list_scope.

(* rows of equal rank of an image come in the order of their ground truths *)
Definition tie_order (x y : drow) : Prop :=
  (0 <= d_gt x)%Z -> (0 <= d_gt y)%Z -> (0 <= d_pd x)%Z -> (0 <= d_pd y)%Z ->
  d_datum x = d_datum y -> d_score x = d_score y -> d_iou x = d_iou y -> (d_gt x <= d_gt y)%Z.

Lemma tie_refl x : tie_order x x.
Proof. intros _ _ _ _ _ _ _. lia. Qed.

Lemma ties_by_datum l : (forall x, In x l -> StronglySorted tie_order (filter (of_datum (d_datum x)) l)) -> StronglySorted tie_order l.
Proof.
  induction l as [|a l IH]; intros H; [constructor|]. constructor.
  - apply IH. intros x Hx. specialize (H x (in_cons _ _ _ Hx)). cbn [filter] in H.
    destruct (of_datum (d_datum x) a); [inversion H; assumption|exact H].
  - apply Forall_forall. intros y Hy. destruct (Z.eq_dec (d_datum a) (d_datum y)) as [E|E].
    + specialize (H a (in_eq _ _)). cbn [filter] in H. assert (X : of_datum (d_datum a) a = true) by (apply Z.eqb_eq; reflexivity). rewrite X in H.
      inversion H as [|? ? _ F]; subst. rewrite Forall_forall in F. apply F. apply filter_In. split; [exact Hy|apply Z.eqb_eq; auto].
    + intros _ _ _ _ E'. contradiction.
Qed.

Lemma ties_concat ts : StronglySorted tie_order (concat ts) <->
  (forall t, In t ts -> StronglySorted tie_order t) /\ StronglySorted (fun t u => forall x y, In x t -> In y u -> tie_order x y) ts.
Proof.
  induction ts as [|t ts IH]; cbn [concat].
  - split; [intros _; split; [intros t []|constructor]|intros _; constructor].
  - rewrite StronglySorted_app, IH. split.
    + intros (A & (B & C) & D). split; [intros u [<-|Hu]; [exact A|apply B; exact Hu]|]. constructor; [exact C|].
      apply Forall_forall. intros u Hu x y Hx Hy. apply D; [exact Hx|]. apply in_concat. eauto.
    + intros (A & B). inversion B as [|? ? B1 B2]; subst. split; [apply A; left; reflexivity|]. split; [split; [intros u Hu; apply A; right; exact Hu|exact B1]|].
      intros x y Hx Hy. apply in_concat in Hy. destruct Hy as (u & Hu & Hy). rewrite Forall_forall in B2. apply (B2 u Hu x y Hx Hy).
Qed.

Lemma ties_dsort t : StronglySorted tie_order t -> StronglySorted tie_order (dsort t).
Proof.
  intros H. apply (sorted_impl (fun x y => det_leb x y = true /\ (det_leb y x = true -> tie_order x y))).
  - intros x y [_ B] A1 A2 A3 A4 A5 A6 A7. apply B; auto. apply det_leb_spec. right. split; [congruence|lia].
  - apply (stable_sort_lex det_leb det_leb_total tie_order t _ (dsort_stable t) H).
Qed.
Lemma ties_sorted ts : StronglySorted tie_order (concat ts) -> StronglySorted tie_order (concat (map dsort ts)).
Proof.
  rewrite !ties_concat. intros (A & B). split.
  - intros t Ht. apply in_map_iff in Ht. destruct Ht as (u & <- & Hu). apply ties_dsort, A, Hu.
  - clear A. induction B as [|t ts B IH F]; cbn; constructor; [exact IH|]. rewrite Forall_forall in *.
    intros u Hu x y Hx Hy. apply in_map_iff in Hu. destruct Hu as (u' & <- & Hu). apply (F u' Hu); apply in_dsort; assumption.
Qed.

Lemma ties_built eps unit ds e : det_input unit ds -> det_evaluator eps unit ds e ->
  (forall r, In r (concat (de_detailed e)) -> exists i d, nth_error ds i = Some d /\ d_datum r = Z.of_nat i) ->
  StronglySorted tie_order (concat (de_detailed e)).
Proof.
  intros Hin He Hrow. apply ties_by_datum. intros x Hx. destruct (Hrow x Hx) as (i & d & Hi & ->).
  destruct (stored_image eps unit ds Hin e He) as (L & _ & _ & H). rewrite (H i d Hi).
  apply (sorted_impl full_order).
  - intros a b [_ B] A1 A2 A3 A4 A5 A6 A7. apply B; auto. apply det_leb_spec. right. split; [congruence|lia].
  - unfold full_order. apply (stable_sort_lex det_leb det_leb_total gt_order _ _ (dsort_stable _)). apply item_rows_order.
Qed.

(* [b] comes from [a]: if it still compares a prediction with a ground truth, these are
   those of [a] *)
Definition comes (a b : drow) : Prop :=
  (0 <= d_gt b)%Z -> (0 <= d_pd b)%Z ->
  d_gt a = d_gt b /\ (0 <= d_pd a)%Z /\ d_datum a = d_datum b /\ d_score a = d_score b /\ d_iou a = d_iou b.
Inductive rows_from : list drow -> list drow -> Prop :=
| From_nil : rows_from [] []
| From_skip a t u : rows_from t u -> rows_from (a :: t) u
| From_take a b t u : comes a b -> rows_from t u -> rows_from (a :: t) (b :: u).
Lemma from_app t u t' u' : rows_from t u -> rows_from t' u' -> rows_from (t ++ t') (u ++ u').
Proof. induction 1; intros; cbn; [assumption|apply From_skip; auto|apply From_take; auto]. Qed.
Lemma from_In t u b : rows_from t u -> In b u -> exists a, In a t /\ comes a b.
Proof.
  induction 1 as [|a t u H IH|a b' t u Hc H IH]; intros Hb; [destruct Hb| |].
  - destruct (IH Hb) as (x & Hx & Hxb). exists x. split; [right; exact Hx|exact Hxb].
  - destruct Hb as [<-|Hb]; [exists a; split; [left; reflexivity|exact Hc]|]. destruct (IH Hb) as (x & Hx & Hxb). exists x. split; [right; exact Hx|exact Hxb].
Qed.
Lemma ties_from t u : rows_from t u -> StronglySorted tie_order t -> StronglySorted tie_order u.
Proof.
  induction 1 as [|a t u H IH|a b t u Hc H IH]; intros S; [constructor|inversion S; auto|].
  inversion S as [|? ? S1 S2]; subst. constructor; [auto|]. apply Forall_forall. intros y Hy A1 A2 A3 A4 A5 A6 A7.
  destruct (from_In t u y H Hy) as (x & Hx & Hxy). rewrite Forall_forall in S2. specialize (S2 x Hx).
  destruct (Hc A1 A3) as (C1 & C2 & C3 & C4 & C5). destruct (Hxy A2 A4) as (D1 & D2 & D3 & D4 & D5).
  rewrite <- C1, <- D1. apply S2; congruence || lia.
Qed.
Lemma from_filter f t : rows_from t (filter f t).
Proof. induction t as [|a t IH]; cbn; [constructor|]. destruct (f a); [apply From_take; [intros A B; auto 6|exact IH]|apply From_skip; exact IH]. Qed.
Lemma from_trans t u v : rows_from t u -> rows_from u v -> rows_from t v.
Proof.
  intros H. revert v. induction H as [|a t u H IH|a b t u Hc H IH]; intros v Hv; [exact Hv|apply From_skip; auto|].
  inversion Hv as [|? ? ? Hv'|? c ? ? Hbc Hv']; subst; [apply From_skip; auto|]. apply From_take; [|auto].
  intros A B. destruct (Hbc A B) as (C1 & C2 & C3 & C4 & C5). destruct (Hc) as (D1 & D2 & D3 & D4 & D5); [lia|lia|]. repeat split; congruence || lia.
Qed.
Lemma from_filter_row g p t : rows_from t (map (fun r => det_filter_row (g r) (p r) r) t).
Proof.
  induction t as [|a t IH]; cbn [map]; [constructor|]. apply From_take; [|exact IH]. unfold comes, det_filter_row. cbn [d_gt d_pd d_datum d_score d_iou].
  destruct (g a), (p a); cbn [andb]; intros A B; (lia || auto 6).
Qed.
Lemma from_filter_table gts pds tb : rows_from tb (det_filter_table gts pds tb).
Proof. unfold det_filter_table. eapply from_trans; [apply from_filter|]. eapply from_trans; [apply from_filter_row|apply from_filter]. Qed.
Lemma from_filter_tables datums gts pds ts : rows_from (concat ts) (concat (det_filter_tables datums gts pds ts)).
Proof.
  induction ts as [|t ts IH]; cbn; [constructor|]. apply from_app; [|exact IH].
  eapply from_trans; [apply from_filter|apply from_filter_table].
Qed.

(* the row chosen for a prediction: of equal rank, the first ground truth *)
Lemma rank_pairs_first t r : In r (rank_pairs (table_sort_by det_sorting t)) -> StronglySorted tie_order t ->
  forall r', In r' t -> eligible t r' -> pd_key r' = pd_key r -> tie_order r r'.
Proof.
  intros Hr S r' Hr' He Ek. apply (Permutation_in r (Permutation_sym (rank_pairs_perm _))) in Hr. apply firsts_In in Hr.
  destruct Hr as (l1 & l2 & El & _ & Hno).
  assert (Hi2 : In r' (l1 ++ r :: l2)).
  { rewrite <- El. apply filter_In. split; [apply in_sorted_table; exact Hr'|]. apply eligibleb_spec.
    apply (eligible_perm t); [intros x; symmetry; apply in_sorted_table|exact He]. }
  assert (Q : StronglySorted tie_order (l1 ++ r :: l2)) by (rewrite <- El; apply StronglySorted_filter, ties_dsort, S).
  apply in_app_iff in Hi2. destruct Hi2 as [Hi2|[<-|Hi2]].
  - exfalso. apply Hno. rewrite <- Ek. apply in_map. exact Hi2.
  - apply tie_refl.
  - apply StronglySorted_app in Q. destruct Q as (_ & Q & _). inversion Q as [|? ? _ F]; subst. rewrite Forall_forall in F. apply F. exact Hi2.
Qed.
