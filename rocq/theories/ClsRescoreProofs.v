(* C127: reports of classifications whose scores are replaced in an order preserving way. *)
From Verif Require Import Prelude Counting CacheModel CacheSpec ClsModel ClsSpec ClsLabelProofs ClsProofs ClsConfProofs RocModel RocProofs RocMain RocCurve
  FlowModel FlowProofs FlowMore ClsLemmas ClsMore ClsFilterModel ClsFilterSpec ClsFilterProofs ClsFilterCounts ClsFilterMain ClsFilterRoc
  ClsReportModel ClsReportSpec ClsReportProofs ClsReportMore ClsRescoreSpec.
From Coq Require Import String QArith.
Local Notation length := List.length (only parsing).
Local Notation concat := List.concat (only parsing).
Local Open Scope nat_scope.
Local Open Scope list_scope.

Definition rs (f : Z -> Z) (p : string * Z) : string * Z := (fst p, f (snd p)).

Lemma combine_map_r {A} (f : Z -> Z) (a : list A) : forall b, combine a (map f b) = map (fun p => (fst p, f (snd p))) (combine a b).
Proof. induction a as [|x t IH]; intros [|y b]; cbn; f_equal; auto. Qed.
Lemma candidates_crescore f c : candidates (crescore f c) = map (rs f) (candidates c).
Proof. unfold candidates, crescore. cbn [c_predictions c_scores]. apply combine_map_r. Qed.
Lemma candidate_score c p : In p (candidates c) -> In (snd p) (c_scores c).
Proof. destruct p as [l s]. intros H. cbn. exact (in_combine_r _ _ _ _ H). Qed.
Lemma accepted_crescore f c : accepted c -> accepted (crescore f c).
Proof. intros [H1 H2]. split; [exact H1|]. cbn. rewrite map_length. exact H2. Qed.

Lemma top_from_crescore f best l :
  (forall x y, In x (best :: l) -> In y (best :: l) -> (snd x < snd y -> f (snd x) < f (snd y))%Z) ->
  top_from (rs f best) (map (rs f) l) = rs f (top_from best l).
Proof.
  revert best. induction l as [|x t IH]; intros best H; [reflexivity|]. cbn [map top_from].
  assert (E : (snd (rs f best) <? snd (rs f x))%Z = (snd best <? snd x)%Z).
  { unfold rs. cbn [snd]. pose proof (H best x ltac:(left; auto) ltac:(right; left; auto)) as A.
    pose proof (H x best ltac:(right; left; auto) ltac:(left; auto)) as B.
    destruct (Z.ltb_spec (snd best) (snd x)) as [C|C]; [apply Z.ltb_lt; auto|]. apply Z.ltb_ge.
    destruct (Z.eq_dec (snd best) (snd x)) as [D|D]; [rewrite D; lia|]. apply Z.lt_le_incl, B. lia. }
  rewrite E. destruct (snd best <? snd x)%Z; apply IH; intros a b Ha Hb; apply H; cbn in Ha, Hb |- *; tauto.
Qed.
Lemma top_crescore f c : keeps_order f (c_scores c) -> top (crescore f c) = option_map (rs f) (top c).
Proof.
  intros H. unfold top. rewrite candidates_crescore. destruct (candidates c) as [|x t] eqn:E; [reflexivity|]. cbn [map option_map]. f_equal.
  apply top_from_crescore. intros a b Ha Hb. rewrite <- E in Ha, Hb. apply H; apply candidate_score; assumption.
Qed.
Lemma positives_crescore f hm pass pass' c : keeps_order f (c_scores c) -> (forall x, In x (c_scores c) -> pass' (f x) = pass x) ->
  positives hm pass' (crescore f c) = positives hm pass c.
Proof.
  intros Ho Hp. unfold positives. destruct hm.
  - rewrite top_crescore by exact Ho. destruct (top c) as [[l s]|] eqn:E; [|reflexivity]. cbn [option_map rs fst snd].
    rewrite Hp; [reflexivity|]. assert (In (l, s) (candidates c)).
    { unfold top in E. destruct (candidates c) as [|x t]; [discriminate|]. injection E as <-. apply top_from_In. }
    exact (candidate_score c _ H).
  - rewrite candidates_crescore. assert (Hin : forall p, In p (candidates c) -> In (snd p) (c_scores c)) by (intros p; apply candidate_score).
    induction (candidates c) as [|p t IH]; [reflexivity|]. cbn [map filter]. unfold rs at 1. cbn [snd].
    rewrite Hp by (apply Hin; left; reflexivity). destruct (pass (snd p)); cbn [map]; [f_equal|]; apply IH; intros q Hq; apply Hin; right; exact Hq.
Qed.

Section Data.
  Variable f : Z -> Z.
  Variable cs : list classification.
  Let cs' := map (crescore f) cs.
  Hypothesis Ho : keeps_order f (scores_in cs).

  Lemma score_in c x : In c cs -> In x (c_scores c) -> In x (scores_in cs).
  Proof. intros Hc Hx. unfold scores_in. apply in_concat. exists (c_scores c). split; [apply in_map; exact Hc|exact Hx]. Qed.
  Lemma order_in c : In c cs -> keeps_order f (c_scores c).
  Proof. intros Hc x y Hx Hy. apply Ho; eapply score_in; eauto. Qed.
  Lemma labels_crescore : labels_of cs' = labels_of cs.
  Proof. unfold labels_of, cs'. rewrite map_map. reflexivity. Qed.
  Lemma distinct_crescore : Forall distinct_candidates cs -> Forall distinct_candidates cs'.
  Proof.
    intros F. unfold cs'. rewrite Forall_forall in F |- *. intros c' Hc'. apply in_map_iff in Hc'. destruct Hc' as (c & <- & Hc).
    exact (F c Hc).
  Qed.
  Lemma few_crescore : few_labels cs -> few_labels cs'.
  Proof. unfold few_labels. rewrite labels_crescore. auto. Qed.

  Lemma countb_map_on {A B} (g : A -> B) (p : B -> bool) (q : A -> bool) l : (forall x, In x l -> p (g x) = q x) ->
    countb p (map g l) = countb q l.
  Proof.
    induction l as [|x t IH]; intros H; [reflexivity|]. cbn [map]. rewrite !countb_first, (H x) by (left; reflexivity).
    rewrite IH; [reflexivity|]. intros y Hy. apply H. right. exact Hy.
  Qed.

  Section View.
    Variables u u' : classification -> string -> bool.
    Hypothesis Hu : same_view f cs u u'.

    Lemma visible_crescore c : In c cs -> visible u' (crescore f c) = visible u c.
    Proof.
      intros Hc. unfold visible. cbn [crescore c_predictions].
      induction (c_predictions c) as [|l t IH]; [reflexivity|]. cbn [existsb]. rewrite IH.
      f_equal. apply Hu; exact Hc.
    Qed.
    Lemma viewed_crescore c : In c cs -> c_predictions (viewed u' (crescore f c)) = c_predictions (viewed u c).
    Proof.
      intros Hc. unfold viewed. cbn [c_predictions]. rewrite candidates_crescore.
      induction (candidates c) as [|p t IH]; [reflexivity|]. cbn [map filter].
      change (fst (rs f p)) with (fst p). rewrite (Hu c (fst p) Hc). destruct (u c (fst p)); cbn [map]; rewrite IH; reflexivity.
    Qed.

    Variable hm : bool.
    Variables pass pass' : Z -> bool.
    Hypothesis Hp : forall x, In x (scores_in cs) -> pass' (f x) = pass x.

    Lemma vpositives_crescore c : In c cs -> vpositives u' hm pass' (crescore f c) = vpositives u hm pass c.
    Proof.
      intros Hc. unfold vpositives. rewrite (positives_crescore f hm pass pass').
      - apply filter_ext. intros l. apply Hu; exact Hc.
      - apply order_in; exact Hc.
      - intros x Hx. apply Hp. eapply score_in; eauto.
    Qed.
    Lemma data_counts_crescore l : data_counts u' hm pass' cs' l = data_counts u hm pass cs l.
    Proof.
      unfold data_counts, cs'. f_equal; apply countb_map_on; intros c Hc; unfold v_tp, v_fp, v_fn, v_tn;
        rewrite ?vpositives_crescore, ?viewed_crescore by exact Hc; reflexivity.
    Qed.
    Lemma data_cell_crescore g p : data_cell u' hm pass' cs' g p = data_cell u hm pass cs g p.
    Proof.
      unfold data_cell, cs'. apply countb_map_on. intros c Hc. rewrite vpositives_crescore by exact Hc. reflexivity.
    Qed.
    Lemma data_missed_crescore g : data_missed u' hm pass' cs' g = data_missed u hm pass cs g.
    Proof.
      unfold data_missed, cs'. apply countb_map_on. intros c Hc. rewrite vpositives_crescore, visible_crescore by exact Hc. reflexivity.
    Qed.
    Lemma data_accuracy_crescore w w' : same_view f cs w w' -> data_accuracy w' u' hm pass' cs' = data_accuracy w u hm pass cs.
    Proof.
      intros Hw. unfold data_accuracy, cs'.
      rewrite (countb_map_on (crescore f) (fun c => smem (c_groundtruth c) (vpositives u' hm pass' c)) (fun c => smem (c_groundtruth c) (vpositives u hm pass c))).
      2:{ intros c Hc. rewrite vpositives_crescore by exact Hc. reflexivity. }
      rewrite (countb_map_on (crescore f) (visible w') (visible w)); [reflexivity|].
      intros c Hc. unfold visible. cbn [crescore c_predictions]. apply existsb_ext_In'. intros l _. apply Hw; exact Hc.
    Qed.
  End View.

  Lemma cselect_crescore w w' s s' : same_view f cs w w' -> same_view f cs s s' -> same_view f cs (cselect w s) (cselect w' s').
  Proof. intros A B c l Hc. unfold cselect. rewrite (A c l Hc), (B c l Hc). reflexivity. Qed.
  Lemma pass_counts_crescore tol t t' : keeps_near tol f (scores_in cs) -> same_cut f (scores_in cs) t t' ->
    forall x, In x (scores_in cs) -> pass_counts tol t' (f x) = pass_counts tol t x.
  Proof.
    intros Hn Hc x Hx. unfold pass_counts. specialize (Hn x Hx). specialize (Hc x Hx). f_equal.
    - destruct (Z.leb_spec t x); [apply Z.leb_le; tauto|apply Z.leb_gt; lia].
    - destruct (Z.ltb_spec tol (Z.abs x)); [apply Z.ltb_lt; tauto|apply Z.ltb_ge; lia].
  Qed.
  Lemma pass_cm_crescore tol9 ts ts' : keeps_positive tol9 f (scores_in cs) -> Forall2 (same_cut f (scores_in cs)) ts ts' ->
    forall x, In x (scores_in cs) -> pass_cm tol9 ts' (f x) = pass_cm tol9 ts x.
  Proof.
    intros Hn Hc x Hx. unfold pass_cm. specialize (Hn x Hx). f_equal.
    - destruct (Z.ltb_spec tol9 x); [apply Z.ltb_lt; tauto|apply Z.ltb_ge; lia].
    - induction Hc as [|t t' a b H _ IH]; [reflexivity|]. cbn [forallb]. rewrite IH. f_equal. specialize (H x Hx).
      destruct (Z.leb_spec t x); [apply Z.leb_le; tauto|apply Z.leb_gt; lia].
  Qed.
End Data.

(* the curve *)
Definition ro (f : Z -> Z) (p : Z * bool) : Z * bool := (f (fst p), snd p).
Definition same_place (st st' : rocst) : Prop := k_fp st = k_fp st' /\ k_tp st = k_tp st' /\ k_last st = k_last st'.
Lemma scan_crescore f rows : forall rows' st st',
  map outc rows' = map (ro f) (map outc rows) ->
  (forall r q, In r rows -> In q rows -> (i_score r = i_score q <-> f (i_score r) = f (i_score q))%Z) ->
  (forall r, In r rows -> (k_score st = i_score r <-> k_score st' = f (i_score r))%Z) -> same_place st st' ->
  snd (scan st' rows') = snd (scan st rows) /\ same_place (fst (scan st rows)) (fst (scan st' rows')).
Proof.
  induction rows as [|r t IH]; intros [|r' t'] st st' Hm Hi Hk Hs; try discriminate; [split; [reflexivity|exact Hs]|].
  cbn [map] in Hm. injection Hm as E1 E2 E3. unfold ro, outc in E1, E2. cbn [fst snd] in E1, E2.
  destruct Hs as (S1 & S2 & S3).
  assert (Ee : emit st' r' = emit st r).
  { unfold emit. rewrite E1, S1, S2. pose proof (Hk r (or_introl eq_refl)) as K.
    destruct (Z.eqb_spec (k_score st) (i_score r)) as [A|A], (Z.eqb_spec (k_score st') (f (i_score r))) as [B|B]; tauto || reflexivity. }
  cbn [scan].
  destruct (IH t' (bump st r) (bump st' r')) as [H1 H2].
  - exact E3.
  - intros a b Ha Hb. apply Hi; right; assumption.
  - intros q Hq. unfold bump. cbn [k_score]. rewrite E1. apply Hi; [left; reflexivity|right; exact Hq].
  - unfold same_place, bump. cbn [k_fp k_tp k_last]. rewrite E2, Ee, S1, S2, S3. auto.
  - destruct (scan (bump st r) t) as [a pa], (scan (bump st' r') t') as [b pb]. cbn [fst snd] in *. subst pb. rewrite Ee. auto.
Qed.
Lemma label_curve_crescore f rows rows' : map outc rows' = map (ro f) (map outc rows) ->
  (forall x y, In x (map i_score rows) -> In y (map i_score rows) -> (x < y -> f x < f y)%Z) ->
  (forall x, In x (map i_score rows) -> (x = 0 <-> f x = 0)%Z) ->
  label_curve rows' = label_curve rows.
Proof.
  intros Hm Ho Hz. unfold label_curve.
  destruct (scan_crescore f rows rows' rocst0 rocst0 Hm) as [E (S1 & S2 & S3)].
  - intros r q Hr Hq. pose proof (Ho _ _ (in_map i_score _ _ Hr) (in_map i_score _ _ Hq)).
    pose proof (Ho _ _ (in_map i_score _ _ Hq) (in_map i_score _ _ Hr)). split; [congruence|].
    intros E. destruct (Z.lt_trichotomy (i_score r) (i_score q)) as [A|[A|A]]; [|exact A|]; exfalso; lia.
  - intros r Hr. specialize (Hz _ (in_map i_score _ _ Hr)). cbn [rocst0 k_score]. split; intros; symmetry; symmetry in H; tauto.
  - repeat split.
  - rewrite E. f_equal. unfold final_point. rewrite S1, S2, S3. reflexivity.
Qed.
