(* Proofs about the scores of the precision-recall curve. *)
From Verif Require Import Prelude Counting CacheModel CacheSpec SortProofs CacheProofs ClsModel ClsLabelProofs ClsLemmas FlowModel FlowProofs Pipeline
  DetModel DetSpec DetRankProofs DetCountProofs DetLoaderProofs DetStoreProofs DetLocalProofs DetApProofs DetMain DetApEnd
  DetFlowModel DetFlowProofs DetOrderProofs DetExModel DetReportModel DetScoreModel DetScoreSpec DetEnd DetMore.
From Coq Require Import QArith Qminmax Sorted Lia.
From Coq Require String.
Local Open Scope nat_scope.
Local Open Scope list_scope.

(* ------------------------------------------------------------------ *)
(** * Running maximum *)

Lemma run_zmax_length c : forall bins m, length (run_zmax c bins m) = length bins.
Proof. induction bins as [|b bins IH]; intros m; [reflexivity|]. cbn. rewrite IH. reflexivity. Qed.
Lemma run_zmax_nth c : forall bins m i q, nth_error (run_zmax c bins m) i = Some q ->
  forall x, (x <= q)%Z <-> (x <= m)%Z \/ exists b, In b (firstn (S i) bins) /\ (x <= c b)%Z.
Proof.
  induction bins as [|b bins IH]; intros m i q H x; [destruct i; discriminate H|].
  destruct i as [|i].
  - cbn in H. injection H as <-. cbn. split.
    + intros A. destruct (Z.le_gt_cases x m) as [B|B]; [left; exact B|right; exists b; split; [left; reflexivity|lia]].
    + intros [A|(b' & [<-|[]] & A)]; lia.
  - cbn in H. rewrite (IH _ _ _ H x). cbn [firstn]. split.
    + intros [A|(b' & A & B)]; [|right; exists b'; split; [right; exact A|exact B]].
      destruct (Z.le_gt_cases x m) as [B|B]; [left; exact B|right; exists b; split; [left; reflexivity|lia]].
    + intros [A|(b' & [<-|A] & B)]; [left; lia|left; lia|right; exists b'; auto].
Qed.
Lemma run_zmax_ext c c' : (forall b, c b = c' b) -> forall bins m, run_zmax c bins m = run_zmax c' bins m.
Proof. intros H. induction bins as [|b bins IH]; intros m; [reflexivity|]. cbn. rewrite H, IH. reflexivity. Qed.

Section PrScores.
  Variables (eps : Z) (e : deval) (datums : drow -> bool) (t l : Z).
  Lemma pr_scores_length : length (rep_pr_scores eps e datums t l) = 101.
  Proof. unfold rep_pr_scores. rewrite rev_length, run_zmax_length, rev_length, seq_length. reflexivity. Qed.
  Lemma pr_scores_nth k q : nth_error (rep_pr_scores eps e datums t l) k = Some q ->
    k <= 100 /\ forall x, (x <= q)%Z <-> (x <= 0)%Z \/ exists b, k <= b <= 100 /\ (x <= rep_bin_score eps e datums t l b)%Z.
  Proof.
    intros H. assert (Hk : k < 101) by (rewrite <- pr_scores_length; apply nth_error_Some; congruence).
    split; [lia|]. unfold rep_pr_scores in H.
    rewrite nth_error_rev_bins in H by (rewrite run_zmax_length, rev_length, seq_length; exact Hk).
    rewrite run_zmax_length, rev_length, seq_length in H.
    intros x. rewrite (run_zmax_nth _ _ _ _ _ H x). replace (S (101 - S k)) with (101 - k) by lia.
    split; (intros [A|(b & A & B)]; [left; exact A|right; exists b; split; [|exact B]]); [apply firstn_rev_bins in A; lia|apply firstn_rev_bins; lia].
  Qed.
  Lemma pr_scores_decreasing j k p q : j <= k -> nth_error (rep_pr_scores eps e datums t l) j = Some p ->
    nth_error (rep_pr_scores eps e datums t l) k = Some q -> (q <= p)%Z.
  Proof.
    intros Hjk Hp Hq. apply (proj2 (proj2 (pr_scores_nth j p Hp) q)). destruct (proj1 (proj2 (pr_scores_nth k q Hq) q) (Z.le_refl q)) as [A|(b & A & B)].
    - left. exact A.
    - right. exists b. split; [lia|exact B].
  Qed.
End PrScores.

(* ------------------------------------------------------------------ *)
(** * The score of a bin *)

Lemma sorted_first {A} (f : A -> bool) (key : A -> Z) : forall l, StronglySorted (fun a b => (key b <= key a)%Z) l ->
  match filter f l with [] => forall x, In x l -> f x = false | p :: _ => In p l /\ f p = true /\ forall x, In x l -> f x = true -> (key x <= key p)%Z end.
Proof.
  induction l as [|a l IH]; intros H; [intros x []|]. apply StronglySorted_inv in H. destruct H as [H Hf]. specialize (IH H). cbn [filter].
  destruct (f a) eqn:E.
  - split; [left; reflexivity|]. split; [exact E|]. intros x [<-|Hx] _; [lia|]. rewrite Forall_forall in Hf. apply Hf. exact Hx.
  - destruct (filter f l) as [|p u].
    + intros x [<-|Hx]; auto.
    + destruct IH as (I1 & I2 & I3). split; [right; exact I1|]. split; [exact I2|]. intros x [<-|Hx] Hfx; [congruence|auto].
Qed.

Lemma StronglySorted_map_inv {A B} (f : A -> B) (P : B -> B -> Prop) : forall l, StronglySorted P (map f l) -> StronglySorted (fun a b => P (f a) (f b)) l.
Proof.
  induction l as [|a l IH]; intros H; [constructor|]. cbn in H. apply StronglySorted_inv in H. destruct H as [H Hf]. constructor; [auto|].
  rewrite Forall_forall in *. intros x Hx. apply Hf. apply in_map. exact Hx.
Qed.

Section BinScore.
  Variables (eps t : Z) (n : Z -> nat) (l : Z) (R : list drow).
  Hypothesis Hs : StronglySorted by_score R.
  Local Notation RL := (filter (fun r => (d_pl r =? l)%Z) R).
  Local Notation hits := (map (tp_outer eps t) RL).
  Local Notation pts := (fst (running eps t run0 R)).

  Lemma pts_sorted : StronglySorted (fun a b => (d_score (fst (fst b)) <= d_score (fst (fst a)))%Z) pts.
  Proof. apply (StronglySorted_map_inv (fun p => fst (fst p)) by_score). rewrite running_rows. exact Hs. Qed.

  Lemma bin_score_ge b x : (0 < x)%Z ->
    ((x <= snd (upd_curve n pts curve0 l b))%Z <-> exists p, In p pts /\ pt_in n l b p = true /\ (x <= d_score (fst (fst p)))%Z).
  Proof.
    intros Hx. unfold upd_curve. cbn [snd curve0]. assert (X := sorted_first (pt_in n l b) (fun p => d_score (fst (fst p))) pts pts_sorted).
    destruct (filter (pt_in n l b) pts) as [|p u].
    - split; [lia|]. intros (p & H1 & H2 & _). rewrite (X p H1) in H2. discriminate.
    - destruct X as (X1 & X2 & X3). split.
      + intros H. exists p. split; [exact X1|]. split; [exact X2|lia].
      + intros (p' & H1 & H2 & H3). specialize (X3 p' H1 H2). lia.
  Qed.

  (* the points of the label, by rank *)
  Lemma pts_label_rows : map (fun p => fst (fst p)) (filter (fun p => (d_pl (fst (fst p)) =? l)%Z) pts) = RL.
  Proof.
    rewrite <- (running_rows eps t R run0) at 2. generalize pts. induction l0 as [|p u IH]; [reflexivity|]. cbn [filter map].
    destruct (d_pl (fst (fst p)) =? l)%Z; cbn [map]; rewrite IH; reflexivity.
  Qed.

  Lemma bin_rank b x : (0 < x)%Z ->
    ((x <= snd (upd_curve n pts curve0 l b))%Z <->
     exists j r, nth_error RL j = Some r /\ (x <= d_score r)%Z /\
       b = 100 * (if tp_outer eps t r then trues (firstn (S j) hits) else 0) / n l).
  Proof.
    intros Hx. rewrite (bin_score_ge b x Hx). assert (Hl := running_label eps t l R run0). cbn [fst snd run0] in Hl.
    assert (Hr := pts_label_rows). set (P := filter (fun p => (d_pl (fst (fst p)) =? l)%Z) pts) in *.
    assert (K : forall j p, nth_error P j = Some p -> nth_error RL j = Some (fst (fst p)) /\
      snd p = if tp_outer eps t (fst (fst p)) then trues (firstn (S j) hits) else 0).
    { intros j p Hj. assert (A := map_nth_error (fun p => fst (fst p)) j P Hj). rewrite Hr in A. split; [exact A|].
      assert (B := pr_list_nth hits 0 0 j). rewrite <- Hl, nth_error_map, Hj in B. cbn [option_map] in B.
      rewrite nth_error_map, A in B. cbn [option_map] in B. injection B as _ B. exact B. }
    split.
    - intros (p & H1 & H2 & H3). unfold pt_in in H2. apply andb_true_iff in H2. destruct H2 as [H2 H4]. apply Nat.eqb_eq in H4.
      assert (Hp : In p P) by (apply filter_In; split; assumption). apply In_nth_error in Hp. destruct Hp as (j & Hj).
      destruct (K j p Hj) as [K1 K2]. exists j, (fst (fst p)). split; [exact K1|]. split; [exact H3|].
      rewrite <- H4. unfold pt_bin. apply Z.eqb_eq in H2. rewrite H2, K2. reflexivity.
    - intros (j & r & H1 & H2 & H3). destruct (nth_error P j) as [p|] eqn:Ep.
      + destruct (K j p Ep) as [K1 K2]. rewrite H1 in K1. injection K1 as ->. apply nth_error_In in Ep. apply filter_In in Ep. destruct Ep as [E1 E2].
        exists p. split; [exact E1|]. split; [|exact H2]. unfold pt_in. rewrite E2. cbn [andb]. apply Nat.eqb_eq. unfold pt_bin.
        apply Z.eqb_eq in E2. rewrite E2, K2. symmetry. exact H3.
      + apply nth_error_None in Ep. assert (length P = length RL) by (rewrite <- Hr, map_length; reflexivity).
        assert (j < length RL) by (apply nth_error_Some; congruence). lia.
  Qed.
End BinScore.

(* ------------------------------------------------------------------ *)
(** * Hits above a score *)

Section Above.
  Variable h : drow -> bool.
  Definition above (s : Z) (l : list drow) : nat := countb (fun r => h r && (s <=? d_score r)%Z) l.

  Lemma above_nth s : forall l, StronglySorted by_score l -> forall j r, nth_error l j = Some r -> (s <= d_score r)%Z ->
    trues (firstn (S j) (map h l)) <= above s l.
  Proof.
    induction l as [|a l IH]; intros Hs j r Hj Hr; [destruct j; discriminate|].
    apply StronglySorted_inv in Hs. destruct Hs as [Hs Hf]. rewrite Forall_forall in Hf.
    assert (Ha : (s <= d_score a)%Z).
    { destruct j as [|j]; cbn in Hj; [injection Hj as ->; exact Hr|]. apply nth_error_In in Hj. specialize (Hf r Hj). unfold by_score in Hf. lia. }
    unfold above, countb in *. cbn [map]. change (firstn (S j) (h a :: map h l)) with (h a :: firstn j (map h l)). unfold trues, countb in *. cbn [filter].
    replace (s <=? d_score a)%Z with true by lia. rewrite andb_true_r.
    assert (X : length (filter (fun b : bool => b) (firstn j (map h l))) <= length (filter (fun r0 => h r0 && (s <=? d_score r0)%Z) l)).
    { destruct j as [|j]; [cbn; lia|]. cbn in Hj. apply (IH Hs j r Hj Hr). }
    destruct (h a); cbn [length]; lia.
  Qed.

  Lemma above_last s : forall l, StronglySorted by_score l -> 0 < above s l ->
    exists j r, nth_error l j = Some r /\ h r = true /\ (s <= d_score r)%Z /\ trues (firstn (S j) (map h l)) = above s l.
  Proof.
    induction l as [|a l IH]; intros Hs H; [cbn in H; lia|].
    apply StronglySorted_inv in Hs. destruct Hs as [Hs Hf]. specialize (IH Hs).
    assert (E : above s (a :: l) = (if h a && (s <=? d_score a)%Z then 1 else 0) + above s l).
    { unfold above, countb. cbn [filter]. destruct (h a && (s <=? d_score a)%Z); reflexivity. }
    destruct (Nat.eq_dec (above s l) 0) as [Z0|Z0].
    - exists 0, a. rewrite E, Z0 in *. destruct (h a && (s <=? d_score a)%Z) eqn:Ea; [|lia]. apply andb_true_iff in Ea. destruct Ea as [E1 E2].
      split; [reflexivity|]. split; [exact E1|]. split; [lia|]. cbn. rewrite E1. reflexivity.
    - destruct IH as (j & r & I1 & I2 & I3 & I4); [lia|]. exists (S j), r. split; [exact I1|]. split; [exact I2|]. split; [exact I3|].
      rewrite E, <- I4. cbn [map]. change (firstn (S (S j)) (h a :: map h l)) with (h a :: firstn (S j) (map h l)).
      assert (Ha : (s <= d_score a)%Z). { rewrite Forall_forall in Hf. specialize (Hf r (nth_error_In _ _ I1)). unfold by_score in Hf. lia. }
      replace (s <=? d_score a)%Z with true by lia. rewrite andb_true_r. unfold trues, countb. cbn [filter]. destruct (h a); cbn [length]; lia.
  Qed.
End Above.

(* ------------------------------------------------------------------ *)
(** * The reported scores *)

Section EndScores.
  Variables (eps unit : Z) (ds : list detection).
  Hypothesis Hin : det_input unit ds.
  Variables (sel : detection -> bool) (datums : drow -> bool).
  Hypothesis Hsel : det_selects ds datums sel.
  Variable e : deval.
  Hypothesis Hu : (0 <= unit)%Z.
  Hypothesis He : det_evaluator eps unit ds e.
  Hypothesis Hfew : few_det_labels ds.
  Variables (v : String.string) (vi : nat).
  Hypothesis Hv : label_no e v vi.
  Variable t : Z.
  Hypothesis Ht : (0 < t)%Z.
  Local Notation ids := (sel_rows ds sel).
  Local Notation F := (filter ids (List.concat (de_ranked e))).
  Local Notation RL := (filter (fun r => (d_pl r =? Z.of_nat vi)%Z) F).

  Lemma F_sorted : StronglySorted by_score F.
  Proof.
    destruct (end_facts eps unit ds Hin e He) as (L & Hst & HR & _ & B & Hf & _).
    apply sorted_by_score. apply (ro_sorted _ (main_filter_ok eps unit ds L _ _ Hu Hin Hst HR (Hf Hfew) sel ids (sel_rows_selects ds sel))).
  Qed.
  Lemma RL_sorted : StronglySorted by_score RL.
  Proof.
    assert (H := F_sorted). induction H as [|a l H IH Hf]; [constructor|]. cbn [filter]. destruct (d_pl a =? Z.of_nat vi)%Z; [|exact IH].
    constructor; [exact IH|]. rewrite Forall_forall in *. intros x Hx. apply filter_In in Hx. apply Hf. apply Hx.
  Qed.
  Lemma score_tp s : rep_tp eps e datums t s (Z.of_nat vi) = above (tp_outer eps t) s RL.
  Proof.
    unfold rep_tp. rewrite (counts_flat eps unit ds Hin sel datums Hsel e Hu He Hfew t s _ Ht).
    destruct (end_facts eps unit ds Hin e He) as (L & Hst & HR & _ & B & Hf & _).
    rewrite (counts_simple eps t s _ _ (tp_keys_NoDup eps _ (main_filter_ok eps unit ds L _ _ Hu Hin Hst HR (Hf Hfew) sel ids (sel_rows_selects ds sel)) t s Ht)). cbn [dc_tp].
    generalize F. clear. induction l as [|r l IH]; [reflexivity|]. unfold above, countb in *. cbn [filter].
    destruct (d_pl r =? Z.of_nat vi)%Z; cbn [filter]; rewrite ?andb_true_r, ?andb_false_r; [|exact IH].
    unfold tp_inner. destruct (tp_outer eps t r && (s <=? d_score r)%Z); [exact (f_equal S IH)|exact IH].
  Qed.
  Lemma score_total s : rep_tp eps e datums t s (Z.of_nat vi) + rep_fp eps e datums t s (Z.of_nat vi)
    = countb (fun r => (eps <? d_score r)%Z && (s <=? d_score r)%Z) RL.
  Proof.
    unfold rep_tp, rep_fp. rewrite (counts_flat eps unit ds Hin sel datums Hsel e Hu He Hfew t s _ Ht). rewrite tp_plus_fp. unfold score_ok.
    generalize F. clear. induction l as [|r l IH]; [reflexivity|]. unfold countb in *. cbn [filter].
    destruct (d_pl r =? Z.of_nat vi)%Z; cbn [filter]; rewrite ?andb_true_r, ?andb_false_r; [|exact IH].
    destruct ((eps <? d_score r)%Z && (s <=? d_score r)%Z); [exact (f_equal S IH)|exact IH].
  Qed.
  Lemma bin_score_rank b x : (0 < x)%Z ->
    ((x <= rep_bin_score eps e datums t (Z.of_nat vi) b)%Z <->
     exists j r, nth_error RL j = Some r /\ (x <= d_score r)%Z /\
       b = 100 * (if tp_outer eps t r then trues (firstn (S j) (map (tp_outer eps t) RL)) else 0) / gts_with sel ds v).
  Proof.
    intros Hx. unfold rep_bin_score. rewrite (curve_flat eps unit ds Hin sel datums Hsel e Hu He Hfew).
    rewrite (bin_rank eps t (rep_gts e datums) (Z.of_nat vi) F F_sorted b x Hx).
    rewrite (end_gts eps unit ds Hin sel datums Hsel e He v vi Hv). reflexivity.
  Qed.
  Lemma RL_bound : trues (map (tp_outer eps t) RL) <= gts_with sel ds v.
  Proof.
    destruct (end_facts eps unit ds Hin e He) as (L & Hst & HR & _ & B & Hf & _). assert (Hv' := Hv). apply B in Hv'.
    apply (hits_bound eps unit ds L _ _ Hu Hin Hst HR (Hf Hfew) sel ids (sel_rows_selects ds sel) v vi Hv' t Ht).
  Qed.
  Lemma tp_outer_score r : tp_outer eps t r = true -> (eps < d_score r)%Z.
  Proof. unfold tp_outer. intros H. apply andb_true_iff in H. destruct H as [H _]. apply andb_true_iff in H. destruct H as [H _]. lia. Qed.

  (* a score threshold is at most the listed score iff the recall at the threshold
     reaches the level *)
  Lemma scores_recall k q : nth_error (rep_pr_scores eps e datums t (Z.of_nat vi)) k = Some q -> 1 <= k -> 
    forall s, (0 < s)%Z ->
    ((s <= q)%Z <-> 0 < rep_tp eps e datums t s (Z.of_nat vi) /\ k * gts_with sel ds v <= 100 * rep_tp eps e datums t s (Z.of_nat vi)).
  Proof.
    intros Hq Hk s Hs. destruct (pr_scores_nth eps e datums t (Z.of_nat vi) k q Hq) as (Hk' & A). rewrite A, score_tp.
    assert (Hb := RL_bound). set (G := gts_with sel ds v) in *.
    split.
    - intros [H|(b & Hb1 & Hb2)]; [lia|]. apply (bin_score_rank b s Hs) in Hb2. destruct Hb2 as (j & r & H1 & H2 & H3). fold G in H3.
      assert (X := above_nth (tp_outer eps t) s RL RL_sorted j r H1 H2).
      destruct (tp_outer eps t r); [|rewrite Nat.mul_0_r in H3; destruct G; cbn in H3; lia].
      destruct (Nat.eq_dec G 0) as [E0|E0]; [rewrite E0 in H3; cbn in H3; lia|].
      assert (Hd := Nat.mul_div_le (100 * trues (firstn (S j) (map (tp_outer eps t) RL))) G E0). rewrite <- H3 in Hd.
      assert (k * G <= G * b) by nia. assert (1 <= k * G) by nia. lia.
    - intros [H1 H2]. right. destruct (above_last (tp_outer eps t) s RL RL_sorted H1) as (j & r & J1 & J2 & J3 & J4).
      set (T := above (tp_outer eps t) s RL) in *.
      assert (HT : T <= G) by (rewrite <- J4; etransitivity; [apply trues_firstn_le|exact Hb]).
      exists (100 * T / G). split; [split; [apply Nat.div_le_lower_bound; lia|apply Nat.div_le_upper_bound; lia]|].
      apply (bin_score_rank _ s Hs). exists j, r. split; [exact J1|]. split; [exact J3|]. rewrite J2, J4. reflexivity.
  Qed.
  Lemma scores_above_eps k q : nth_error (rep_pr_scores eps e datums t (Z.of_nat vi)) k = Some q -> 1 <= k -> q = 0%Z \/ (0 < q /\ eps < q)%Z.
  Proof.
    intros Hq Hk. destruct (pr_scores_nth eps e datums t (Z.of_nat vi) k q Hq) as (Hk' & A).
    assert (Hq0 : (0 <= q)%Z) by (apply A; left; lia). destruct (Z.eq_dec q 0) as [->|Hn]; [left; reflexivity|right]. split; [lia|].
    destruct (proj1 (scores_recall k q Hq Hk q ltac:(lia)) (Z.le_refl q)) as [H1 _]. rewrite score_tp in H1.
    destruct (above_last (tp_outer eps t) q RL RL_sorted H1) as (j & r & J1 & J2 & J3 & J4). assert (X := tp_outer_score r J2).
    destruct (Z.le_gt_cases q eps) as [Y|Y]; [exfalso|exact Y].
    (* the listed score is the score of a hit *)
    assert (Z1 : (eps + 1 <= q)%Z); [|lia].
    destruct (Z.le_gt_cases (eps + 1) 0) as [W|W]; [lia|].
    apply (scores_recall k q Hq Hk (eps + 1)%Z W). rewrite score_tp.
    assert (E : above (tp_outer eps t) (eps + 1) RL = above (tp_outer eps t) q RL).
    { unfold above, countb. f_equal. apply filter_ext. intros x. destruct (tp_outer eps t x) eqn:Ex; [|reflexivity]. apply tp_outer_score in Ex. cbn [andb]. lia. }
    rewrite E, <- score_tp. apply (scores_recall k q Hq Hk q ltac:(lia)). lia.
  Qed.
  (* at recall level 0: the best score of the predictions *)
  Lemma scores_first q : nth_error (rep_pr_scores eps e datums t (Z.of_nat vi)) 0 = Some q ->
    forall s, (0 < s)%Z -> (eps < s)%Z -> ((s <= q)%Z <-> 0 < rep_tp eps e datums t s (Z.of_nat vi) + rep_fp eps e datums t s (Z.of_nat vi)).
  Proof.
    intros Hq s Hs Hse. destruct (pr_scores_nth eps e datums t (Z.of_nat vi) 0 q Hq) as (Hk' & A). rewrite A, score_total.
    assert (Hb := RL_bound). set (G := gts_with sel ds v) in *. split.
    - intros [H|(b & Hb1 & Hb2)]; [lia|]. apply (bin_score_rank b s Hs) in Hb2. destruct Hb2 as (j & r & H1 & H2 & _).
      apply nth_error_In in H1. unfold countb.
      assert (X : In r (filter (fun r => (eps <? d_score r)%Z && (s <=? d_score r)%Z) RL)) by (apply filter_In; split; [exact H1|lia]).
      destruct (filter _ RL); [destruct X|cbn; lia].
    - intros H. right. unfold countb in H. destruct (filter (fun r => (eps <? d_score r)%Z && (s <=? d_score r)%Z) RL) as [|r u] eqn:E; [cbn in H; lia|].
      assert (Hr : In r (filter (fun r => (eps <? d_score r)%Z && (s <=? d_score r)%Z) RL)) by (rewrite E; left; reflexivity).
      apply filter_In in Hr. destruct Hr as [Hr1 Hr2]. apply In_nth_error in Hr1. destruct Hr1 as (j & Hj).
      set (b := 100 * (if tp_outer eps t r then trues (firstn (S j) (map (tp_outer eps t) RL)) else 0) / G).
      exists b. split; [|apply (bin_score_rank b s Hs); exists j, r; split; [exact Hj|]; split; [lia|reflexivity]].
      split; [lia|]. unfold b. destruct (Nat.eq_dec G 0) as [E0|E0]; [rewrite E0; cbn; lia|]. apply Nat.div_le_upper_bound; [exact E0|].
      assert (Y := trues_firstn_le (map (tp_outer eps t) RL) (S j)). destruct (tp_outer eps t r); lia.
  Qed.
  (* ---------------------------------------------------------------- recall as a fraction *)
  Lemma recall_level s k : 0 < gts_with sel ds v ->
    ((qnat k / 100 <= rep_recall eps e datums t s (Z.of_nat vi))%Q <-> k * gts_with sel ds v <= 100 * rep_tp eps e datums t s (Z.of_nat vi)).
  Proof.
    intros HG. unfold rep_recall, det_recall. rewrite (end_gts eps unit ds Hin sel datums Hsel e He v vi Hv). fold (rep_tp eps e datums t s (Z.of_nat vi)).
    unfold qdiv_or_0. replace (Nat.ltb 0 (gts_with sel ds v)) with true by (symmetry; apply Nat.ltb_lt; exact HG).
    generalize (rep_tp eps e datums t s (Z.of_nat vi)), (gts_with sel ds v), HG. clear. intros T G HG.
    change (inject_Z (Z.of_nat T)) with (qnat T). change (inject_Z (Z.of_nat G)) with (qnat G).
    assert (HG' : (0 < qnat G)%Q) by (unfold qnat, Qlt; cbn; lia).
    assert (HGn : ~ (qnat G == 0)%Q) by (intros E; rewrite E in HG'; exact (Qlt_irrefl 0 HG')).
    assert (K : (qnat k * qnat G <= 100 * qnat T)%Q <-> k * G <= 100 * T).
    { change 100%Q with (inject_Z 100). unfold qnat. rewrite <- !inject_Z_mult, <- Zle_Qle. lia. }
    rewrite <- K. split; intros H.
    - setoid_replace (qnat k * qnat G)%Q with (100 * ((qnat k / 100) * qnat G))%Q by field.
      setoid_replace (qnat T) with ((qnat T / qnat G) * qnat G)%Q by (field; exact HGn).
      apply Qmult_le_l; [reflexivity|]. apply Qmult_le_r; [exact HG'|exact H].
    - apply Qle_shift_div_l; [exact HG'|]. setoid_replace (qnat k / 100 * qnat G)%Q with ((qnat k * qnat G) / 100)%Q by field.
      apply Qle_shift_div_r; [reflexivity|]. rewrite (Qmult_comm (qnat T)). exact H.
  Qed.
  Lemma scores_level k q : 0 < gts_with sel ds v -> nth_error (rep_pr_scores eps e datums t (Z.of_nat vi)) k = Some q -> 1 <= k ->
    forall s, (0 < s)%Z -> ((s <= q)%Z <-> (qnat k / 100 <= rep_recall eps e datums t s (Z.of_nat vi))%Q).
  Proof.
    intros HG Hq Hk s Hs. rewrite (scores_recall k q Hq Hk s Hs), (recall_level s k HG). split; [tauto|]. intros H. split; [|exact H]. nia.
  Qed.
  Lemma scores_without_gts k q : gts_with sel ds v = 0 -> nth_error (rep_pr_scores eps e datums t (Z.of_nat vi)) k = Some q -> 1 <= k -> q = 0%Z.
  Proof.
    intros HG Hq Hk. destruct (scores_above_eps k q Hq Hk) as [E|[E _]]; [exact E|]. exfalso.
    destruct (proj1 (scores_recall k q Hq Hk q E) (Z.le_refl q)) as [H _]. assert (X := RL_bound). rewrite score_tp in H. rewrite HG in X.
    destruct (above_last (tp_outer eps t) q RL RL_sorted H) as (j & r & J1 & J2 & J3 & J4).
    assert (Y := trues_firstn_le (map (tp_outer eps t) RL) (S j)). lia.
  Qed.

  (* ---------------------------------------------------------------- operating points *)
  Lemma curve_is_interpolated k p : nth_error (rep_pr_curve eps e datums t (Z.of_nat vi)) k = Some p ->
    (p == interpolated (gts_with sel ds v) (map (tp_outer eps t) RL) k)%Q.
  Proof.
    intros Hp. assert (Hb := RL_bound). assert (Eg := end_gts eps unit ds Hin sel datums Hsel e He v vi Hv). rewrite <- Eg in *.
    destruct (pr_curve_nth eps e datums t (Z.of_nat vi) k p Hp) as (Hk & A).
    apply same_upper_bounds. intros x. rewrite A, (interpolated_le eps t (rep_gts e datums) (Z.of_nat vi) _ Hb).
    assert (Ec : forall b, rep_curve eps e datums t (Z.of_nat vi) b
      = fst (upd_curve (rep_gts e datums) (fst (running eps t run0 F)) curve0 (Z.of_nat vi) b)).
    { intros b. unfold rep_curve. rewrite (curve_flat eps unit ds Hin sel datums Hsel e Hu He Hfew). reflexivity. }
    split; intros [X1 X2]; (split; [exact X1|]); intros b Hb'; [rewrite <- Ec|rewrite Ec]; apply X2; exact Hb'.
  Qed.
  Lemma in_prefix_countb (f : drow -> bool) : forall (l : list drow) j, (forall r, In r (firstn j l) -> f r = true) -> j <= length l -> j <= countb f l.
  Proof.
    clear. induction l as [|a l IH]; intros j H Hj; [cbn in *; lia|]. destruct j as [|j]; [lia|]. unfold countb in *. cbn [filter].
    rewrite (H a (or_introl eq_refl)). cbn [length]. apply le_n_S. apply IH; [|cbn in Hj; lia]. intros r Hr. apply H. right. exact Hr.
  Qed.
  Lemma RL_prefix j r : nth_error RL j = Some r -> forall x, In x (firstn (S j) RL) -> (d_score r <= d_score x)%Z.
  Proof.
    assert (Hs := RL_sorted). revert j. induction Hs as [|a l Hs IH Hf]; intros j Hj x Hx; [destruct j; discriminate|].
    rewrite Forall_forall in Hf. destruct j as [|j]; cbn [nth_error firstn] in *.
    - injection Hj as ->. destruct Hx as [<-|Hx]; [lia|destruct Hx].
    - destruct Hx as [<-|Hx]; [apply Hf; apply (nth_error_In _ _ Hj)|apply (IH j Hj x Hx)].
  Qed.
  (* no score threshold beats the listed precision at its recall *)
  Lemma curve_bounds k p s : nth_error (rep_pr_curve eps e datums t (Z.of_nat vi)) k = Some p ->
    (qnat k / 100 <= rep_recall eps e datums t s (Z.of_nat vi))%Q -> (rep_precision eps e datums t s (Z.of_nat vi) <= p)%Q.
  Proof.
    intros Hp Hr. rewrite (curve_is_interpolated k p Hp).
    unfold rep_precision, det_precision. fold (rep_tp eps e datums t s (Z.of_nat vi)). fold (rep_fp eps e datums t s (Z.of_nat vi)).
    assert (HI := interpolated_range (gts_with sel ds v) (map (tp_outer eps t) RL) k). unfold qdiv_or_0.
    destruct (Nat.ltb_spec 0 (rep_tp eps e datums t s (Z.of_nat vi) + rep_fp eps e datums t s (Z.of_nat vi))) as [Hpos|_]; [|apply HI].
    destruct (Nat.eq_dec (rep_tp eps e datums t s (Z.of_nat vi)) 0) as [E0|E0]; [rewrite E0; change (inject_Z (Z.of_nat 0)) with 0%Q; unfold Qdiv; rewrite Qmult_0_l; apply HI|].
    rewrite score_tp in E0. destruct (above_last (tp_outer eps t) s RL RL_sorted) as (j & r & J1 & J2 & J3 & J4); [lia|].
    assert (HG : 0 < gts_with sel ds v). { assert (X := RL_bound). assert (Y := trues_firstn_le (map (tp_outer eps t) RL) (S j)). lia. }
    apply (recall_level s k HG) in Hr. rewrite score_tp in Hr.
    assert (Hj : j < length RL) by (apply nth_error_Some; congruence).
    assert (Htot : S j <= rep_tp eps e datums t s (Z.of_nat vi) + rep_fp eps e datums t s (Z.of_nat vi)).
    { rewrite score_total. apply in_prefix_countb; [|lia]. intros x Hx. assert (X := RL_prefix j r J1 x Hx). assert (Y := tp_outer_score r J2). lia. }
    eapply Qle_trans; [apply (qnat_div_antitone _ (S j)); [lia|exact Htot]|]. rewrite score_tp, <- J4.
    fold (prefix_precision (map (tp_outer eps t) RL) (S j)). refine (proj2 (proj1 (qmaxl_le _ _) (Qle_refl (interpolated (gts_with sel ds v) (map (tp_outer eps t) RL) k))) _ _).
    apply in_map. apply filter_In. split; [apply in_seq; rewrite map_length; lia|]. unfold prefix_recall_ge. apply Nat.leb_le. rewrite J4. exact Hr.
  Qed.

  (* with distinct scores the listed precision is reached by a threshold *)
  Hypothesis Hdis : Forall distinct_pd_labels ds.
  Hypothesis Hds : distinct_scores sel ds v.
  Lemma RL_scores : NoDup (map d_score RL).
  Proof.
    destruct (end_facts eps unit ds Hin e He) as (L & Hst & HR & _ & B & Hf & _). assert (Hv' := Hv). apply B in Hv'.
    destruct (rl_ranking eps unit ds L _ _ Hu Hin Hst HR (Hf Hfew) Hdis sel ids (sel_rows_selects ds sel) v vi Hv') as [A1 A2 _].
    replace (map d_score RL) with (map snd (map (item_of ds) RL)) by (rewrite map_map; reflexivity).
    revert A1 A2. generalize (map (item_of ds) RL). intros P A1 A2.
    assert (K : forall x y, In x P -> In y P -> snd x = snd y -> fst x = fst y).
    { intros [[i p] sc] [[i' p'] sc'] Hx Hy E. cbn in E |- *. subst sc'. apply A2 in Hx. apply A2 in Hy.
      destruct Hx as (d & a & n & X1 & X2 & X3 & X4 & X5 & _). destruct Hy as (d' & a' & n' & Y1 & Y2 & Y3 & Y4 & Y5 & _).
      destruct (Hds i d p a n sc i' d' p' a' n' X1 X2 X3 X4 X5 Y1 Y2 Y3 Y4 Y5) as [-> ->]. reflexivity. }
    clear A2. induction P as [|x P IH]; [constructor|]. cbn in A1 |- *. inversion A1 as [|? ? N1 N2]; subst. constructor.
    - intros Hc. apply in_map_iff in Hc. destruct Hc as (y & E & Hy). apply N1. apply in_map_iff. exists y. split; [|exact Hy].
      apply K; [right; exact Hy|left; reflexivity|exact E].
    - apply IH; [exact N2|]. intros a b Ha Hb. apply K; right; assumption.
  Qed.
  Lemma sorted_cut : forall l, StronglySorted by_score l -> NoDup (map d_score l) -> forall j r, nth_error l j = Some r ->
    forall f : drow -> bool, countb (fun x => f x && (d_score r <=? d_score x)%Z) l = countb f (firstn (S j) l).
  Proof.
    clear. induction l as [|a l IH]; intros Hs Hn j r Hj f; [destruct j; discriminate|]. apply StronglySorted_inv in Hs. destruct Hs as [Hs Hf].
    rewrite Forall_forall in Hf. cbn [map] in Hn. inversion Hn as [|? ? N1 N2]; subst. unfold countb. destruct j as [|j].
    - cbn in Hj. injection Hj as ->. cbn [firstn filter]. replace (d_score r <=? d_score r)%Z with true by lia. rewrite andb_true_r.
      assert (E : filter (fun x => f x && (d_score r <=? d_score x)%Z) l = []).
      { destruct (filter _ l) as [|y u] eqn:E; [reflexivity|]. exfalso.
        assert (Hy : In y (filter (fun x => f x && (d_score r <=? d_score x)%Z) l)) by (rewrite E; left; reflexivity).
        apply filter_In in Hy. destruct Hy as [Hy1 Hy2]. apply andb_true_iff in Hy2. destruct Hy2 as [_ Hy2]. specialize (Hf y Hy1). unfold by_score in Hf.
        apply N1. apply in_map_iff. exists y. split; [lia|exact Hy1]. }
      rewrite E. destruct (f r); reflexivity.
    - cbn in Hj. change (firstn (S (S j)) (a :: l)) with (a :: firstn (S j) l). cbn [filter].
      assert (Ha : (d_score r <= d_score a)%Z) by (apply Hf; apply (nth_error_In _ _ Hj)). replace (d_score r <=? d_score a)%Z with true by lia. rewrite andb_true_r.
      specialize (IH Hs N2 j r Hj f). unfold countb in IH. destruct (f a); [exact (f_equal S IH)|exact IH].
  Qed.
  Lemma curve_attained k p : nth_error (rep_pr_curve eps e datums t (Z.of_nat vi)) k = Some p -> ~ (p == 0)%Q ->
    exists s, (eps < s)%Z /\ (qnat k / 100 <= rep_recall eps e datums t s (Z.of_nat vi))%Q /\ (rep_precision eps e datums t s (Z.of_nat vi) == p)%Q.
  Proof.
    intros Hp H0. assert (E := curve_is_interpolated k p Hp).
    set (H := map (tp_outer eps t) RL) in *. set (G := gts_with sel ds v) in *.
    (* a prefix with the largest precision, cut after its last hit *)
    assert (Hmax : exists i, In i (filter (prefix_recall_ge G H k) (seq 1 (length H))) /\ (prefix_precision H i == p)%Q).
    { unfold interpolated in E. revert E. generalize (filter (prefix_recall_ge G H k) (seq 1 (length H))). intros l.
      assert (W : forall x, ~ (x == 0)%Q -> (x == qmaxl (map (prefix_precision H) l))%Q -> exists i, In i l /\ (prefix_precision H i == x)%Q); [|intros E; apply (W p H0 E)].
      induction l as [|i l IH]; intros x Hx0 Ex; cbn in Ex; [contradiction|].
      destruct (Q.max_spec (prefix_precision H i) (qmaxl (map (prefix_precision H) l))) as [[_ M]|[_ M]]; fold (qmaxl (map (prefix_precision H) l)) in Ex; rewrite M in Ex.
      - destruct (IH x Hx0 Ex) as (i' & I1 & I2). exists i'. split; [right; exact I1|exact I2].
      - exists i. split; [left; reflexivity|symmetry; exact Ex]. }
    destruct Hmax as (i & Hi & Ei). apply filter_In in Hi. destruct Hi as [Hi1 Hi2]. apply in_seq in Hi1. unfold prefix_recall_ge in Hi2. apply Nat.leb_le in Hi2.
    assert (Ht0 : 0 < trues (firstn i H)).
    { destruct (trues (firstn i H)) eqn:Z0; [|lia]. exfalso. apply H0. rewrite <- Ei. unfold prefix_precision. rewrite Z0. change (qnat 0) with 0%Q. unfold Qdiv. apply Qmult_0_l. }
    destruct (last_hit H i Ht0) as (j & Hj1 & Hj2 & Hj3).
    assert (Hr : exists r, nth_error RL j = Some r /\ tp_outer eps t r = true).
    { unfold H in Hj2. rewrite nth_error_map in Hj2. destruct (nth_error RL j) as [r|]; [|discriminate]. exists r. split; [reflexivity|]. cbn in Hj2. congruence. }
    destruct Hr as (r & Hr1 & Hr2). assert (Hse := tp_outer_score r Hr2). exists (d_score r). split; [exact Hse|].
    assert (HT : rep_tp eps e datums t (d_score r) (Z.of_nat vi) = trues (firstn (S j) H)).
    { rewrite score_tp. unfold above. rewrite (sorted_cut RL RL_sorted RL_scores j r Hr1). unfold H. rewrite firstn_map. unfold trues. rewrite countb_id_map. reflexivity. }
    assert (HS : rep_tp eps e datums t (d_score r) (Z.of_nat vi) + rep_fp eps e datums t (d_score r) (Z.of_nat vi) = S j).
    { rewrite score_total. rewrite (sorted_cut RL RL_sorted RL_scores j r Hr1 (fun x => (eps <? d_score x)%Z)).
      assert (Hlj : j < length RL) by (apply nth_error_Some; congruence).
      assert (U := countb_le_length (fun x => (eps <? d_score x)%Z) (firstn (S j) RL)). rewrite firstn_length in U.
      assert (V := in_prefix_countb (fun x => (eps <? d_score x)%Z) (firstn (S j) RL) (S j)). rewrite firstn_firstn, Nat.min_id, firstn_length in V.
      specialize (V ltac:(intros x Hx; assert (X := RL_prefix j r Hr1 x Hx); lia) ltac:(lia)). lia. }
    assert (HG : 0 < G). { assert (X := RL_bound). fold H in X. fold G in X. assert (Y := trues_firstn_le H i). lia. }
    assert (Hrec : (qnat k / 100 <= rep_recall eps e datums t (d_score r) (Z.of_nat vi))%Q) by (apply (recall_level _ k HG); fold G; rewrite HT, Hj3; exact Hi2).
    split; [exact Hrec|]. apply Qle_antisym; [apply (curve_bounds k p _ Hp Hrec)|]. rewrite <- Ei.
    unfold rep_precision, det_precision. fold (rep_tp eps e datums t (d_score r) (Z.of_nat vi)). fold (rep_fp eps e datums t (d_score r) (Z.of_nat vi)). rewrite HS, HT, Hj3.
    unfold qdiv_or_0. cbn [Nat.ltb Nat.leb]. unfold prefix_precision. apply (qnat_div_antitone (trues (firstn i H)) (S j) i); lia.
  Qed.
End EndScores.

Section SameScores.
  Variables (eps unit : Z) (ds : list detection).
  Hypothesis Hin : det_input unit ds.
  Variables (sel : detection -> bool) (datums : drow -> bool).
  Hypothesis Hsel : det_selects ds datums sel.
  Hypothesis Hu : (0 <= unit)%Z.
  Hypothesis Hfew : few_det_labels ds.
  Variables e1 e2 : deval.
  Hypothesis H1 : det_evaluator eps unit ds e1.
  Hypothesis H2 : det_evaluator eps unit ds e2.
  Lemma same_scores v vi t : label_no e1 v vi -> rep_pr_scores eps e1 datums t (Z.of_nat vi) = rep_pr_scores eps e2 datums t (Z.of_nat vi).
  Proof.
    intros Hv. unfold rep_pr_scores. f_equal. apply run_zmax_ext. intros b. unfold rep_bin_score.
    rewrite (curve_flat eps unit ds Hin sel datums Hsel e1 Hu H1 Hfew). rewrite (curve_flat eps unit ds Hin sel datums Hsel e2 Hu H2 Hfew).
    rewrite (end_same_ranking eps unit ds Hin e1 e2 H1 H2). f_equal. apply upd_curve_ext.
    apply (same_gts eps unit ds Hin sel datums Hsel e1 e2 H1 H2 v vi Hv).
  Qed.
End SameScores.
