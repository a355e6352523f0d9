(* C142: detection scores equal to one. *)
From Verif Require Import Prelude Counting CacheModel CacheSpec ClsModel ClsSpec FlowModel DetModel DetExModel DetSpec DetFlowModel DetReportModel DetEnd DetMore PerfectProofs.
From Coq Require Import String QArith Lia.
Local Notation length := List.length (only parsing).
Local Open Scope nat_scope.
Local Open Scope list_scope.

Definition kept_gts (sel : detection -> bool) (ds : list detection) : list (detection * (nat * annotation)) :=
  List.concat (map (fun d => if sel d then map (pair d) (numbered (t_gts d)) else []) ds).
Lemma kept_gts_In sel ds d g a : In (d, (g, a)) (kept_gts sel ds) <-> In d ds /\ sel d = true /\ In (g, a) (numbered (t_gts d)).
Proof.
  unfold kept_gts. rewrite in_concat. split.
  - intros (r & Hr & Hx). apply in_map_iff in Hr. destruct Hr as (d0 & <- & Hd). destruct (sel d0) eqn:S; [|destruct Hx].
    apply in_map_iff in Hx. destruct Hx as (x & E & Hx). injection E as -> ->. auto.
  - intros (Hd & S & Hx). exists (map (pair d) (numbered (t_gts d))). split; [apply in_map_iff; exists d; rewrite S; auto|apply in_map, Hx].
Qed.
Lemma numbered_countb {A} (f : A -> bool) l : countb (fun x => f (snd x)) (numbered l) = countb f l.
Proof.
  unfold numbered. generalize 0. induction l as [|x t IH]; intros n; [reflexivity|]. cbn. unfold countb in *. cbn. destruct (f x); cbn; rewrite IH; reflexivity.
Qed.
Lemma numbered_nth {A} (l : list A) g a : In (g, a) (numbered l) <-> nth_error l g = Some a.
Proof.
  unfold numbered. assert (X : forall n, In (g, a) (combine (seq n (length l)) l) <-> n <= g /\ nth_error l (g - n) = Some a).
  { induction l as [|x t IH]; intros n; cbn [List.length seq combine In].
    - split; [intros []|]. intros [_ H]. destruct (g - n); discriminate.
    - rewrite IH. split.
      + intros [E|[H1 H2]]; [injection E as -> ->; rewrite Nat.sub_diag; auto|]. split; [lia|]. replace (g - n) with (S (g - S n)) by lia. exact H2.
      + intros [H1 H2]. destruct (Nat.eq_dec n g) as [->|N]; [left; rewrite Nat.sub_diag in H2; injection H2 as ->; reflexivity|right].
        split; [lia|]. replace (g - n) with (S (g - S n)) in H2 by lia. exact H2. }
  rewrite X, Nat.sub_0_r. split; [intros [_ H]; exact H|]. intros H. split; [lia|exact H].
Qed.
Lemma gts_where_flat sel ok ds l : gts_where sel ok ds l = countb (fun x => has_label l (snd (snd x)) && ok (fst x) (fst (snd x))) (kept_gts sel ds).
Proof.
  unfold gts_where, kept_gts. rewrite countb_concat, map_map. f_equal. apply map_ext. intros d. destruct (sel d); [|reflexivity]. rewrite countb_map. reflexivity.
Qed.
Lemma gts_with_flat sel ds l : gts_with sel ds l = countb (fun x => has_label l (snd (snd x))) (kept_gts sel ds).
Proof.
  unfold gts_with, kept_gts. rewrite countb_concat, map_map. f_equal. apply map_ext. intros d. destruct (sel d); [|reflexivity]. rewrite countb_map.
  symmetry. apply (numbered_countb (has_label l)).
Qed.

Section Det.
  Variables (eps unit : Z) (ds : list detection).
  Hypothesis Hin : det_input unit ds.
  Variables (sel : detection -> bool) (datums : drow -> bool).
  Hypothesis Hsel : det_selects ds datums sel.
  Variable e : deval.
  Hypothesis Hu : (0 <= unit)%Z.
  Hypothesis He : det_evaluator eps unit ds e.
  Hypothesis Hfew : few_det_labels ds.
  Variables (v : string) (vi : nat).
  Hypothesis Hv : label_no e v vi.
  Variables (t s : Z).
  Hypothesis Ht : (0 < t)%Z.
  Hypothesis He0 : (0 <= eps)%Z.
  Theorem det_recall_one : Forall distinct_pd_labels ds -> Forall (no_ties eps) ds ->
    ((rep_recall eps e datums t s (Z.of_nat vi) == 1)%Q <->
      (exists d g a, In d ds /\ sel d = true /\ nth_error (t_gts d) g = Some a /\ has_label v a = true) /\
      (forall d g a, In d ds -> sel d = true -> nth_error (t_gts d) g = Some a -> has_label v a = true -> detected eps t s d v g = true)).
  Proof.
    intros Hd Hn. pose proof (end_tp_spec eps unit ds Hin sel datums Hsel e Hu He Hfew v vi Hv t s Ht He0 Hd Hn) as T. pose proof (end_gts eps unit ds Hin sel datums Hsel e He v vi Hv) as G.
    unfold rep_recall, det_recall. unfold rep_tp in T. rewrite T, G, gts_where_flat, gts_with_flat. unfold qdiv_or_0.
    destruct (Nat.ltb_spec 0 (countb (fun x => has_label v (snd (snd x))) (kept_gts sel ds))) as [P|P].
    - rewrite ratio_one by exact P. rewrite (countb_all _ (fun x => has_label v (snd (snd x)))) by (intros x _ H; apply andb_true_iff in H; apply H).
      apply countb_pos in P. destruct P as ([d [g a]] & P & L). apply kept_gts_In in P. rewrite numbered_nth in P. split.
      + intros A. split; [exists d, g, a; tauto|]. intros d' g' a' I' S' N' L'. specialize (A (d', (g', a'))). cbn [fst snd] in A. rewrite L' in A. apply A; [|reflexivity].
        apply kept_gts_In. rewrite numbered_nth. auto.
      + intros [_ A] [d' [g' a']] I' L'. cbn [fst snd] in *. apply kept_gts_In in I'. rewrite numbered_nth in I'. rewrite L'. apply (A d' g' a'); tauto.
    - split; [intros X; discriminate X|]. intros [(d & g & a & I & S & N & L) _]. exfalso.
      assert (0 < countb (fun x => has_label v (snd (snd x))) (kept_gts sel ds)); [|lia]. apply countb_pos. exists (d, (g, a)). split; [apply kept_gts_In; rewrite numbered_nth; auto|exact L].
  Qed.
  Theorem det_precision_one : Forall single_pd_labels ds -> Forall (no_ties eps) ds ->
    ((rep_precision eps e datums t s (Z.of_nat vi) == 1)%Q <->
      0 < gts_where sel (fun d g => detected eps t s d v g) ds v /\
      gts_where sel (fun d g => detected eps t s d v g) ds v = pds_with sel (fun sc => (eps <? sc)%Z && (s <=? sc)%Z) ds v).
  Proof.
    intros Hs Hn.
    assert (Hd : Forall distinct_pd_labels ds).
    { rewrite Forall_forall in *. intros d Hd a Ha. specialize (Hs d Hd a Ha). destruct (a_labels a) as [|x [|y l]]; try discriminate. repeat constructor. intros []. }
    pose proof (end_tp_spec eps unit ds Hin sel datums Hsel e Hu He Hfew v vi Hv t s Ht He0 Hd Hn) as T.
    pose proof (end_pd_count_single eps unit ds Hin sel datums Hsel e Hu He Hfew v vi Hv t s Ht Hs) as N.
    rewrite <- T, <- N. unfold rep_precision, det_precision, rep_tp, rep_fp in *. unfold qdiv_or_0.
    match goal with |- context [Nat.ltb 0 ?x] => destruct (Nat.ltb_spec 0 x) as [P|P] end.
    - rewrite ratio_one by exact P. lia.
    - split; [intros X; discriminate X|lia].
  Qed.
End Det.
