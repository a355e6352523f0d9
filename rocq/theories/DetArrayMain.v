(* The arrays of compute_precision_recall for real evaluators. *)
From Verif Require Import Prelude Counting CacheModel CacheSpec ClsModel FlowModel
  DetModel DetSpec DetRankProofs DetCountProofs DetStoreProofs ClsLabelProofs DetFlowModel DetFlowProofs DetOrderProofs DetReportModel DetApProofs DetApEnd DetScoreModel DetEnd DetMain DetMore
  FloatModel FloatProofs FloatCurveProofs DetArrayModel DetArraySpec DetArrayProofs.
From Coq Require Import QArith Qminmax Sorting.Sorted Lia.
Local Open Scope nat_scope.
Local Open Scope list_scope.

Lemma array_of_tab {A} n (f : Z -> A) : array_of n (tab n f) (fun k x => x = f (Z.of_nat k)).
Proof.
  split; [apply tab_length|]. intros k x. rewrite tab_nth. destruct (k <? n); [|discriminate]. intros E. injection E as <-. reflexivity.
Qed.
Lemma array_of_grid n c c' : same_curve c c' ->
  array_of n (grid n c) (fun l row => array_of 101 row (fun b x => (fst x == fst (c' (Z.of_nat l) b))%Q /\ snd x = snd (c' (Z.of_nat l) b))).
Proof.
  intros S. split; [apply tab_length|]. intros l row. unfold grid. rewrite tab_nth. destruct (l <? n); [|discriminate]. intros E.
  apply (f_equal (fun o => match o with Some r => r | None => row end)) in E. cbn beta iota in E. rewrite <- E.
  split; [rewrite map_length; apply seq_length|]. intros b x Hx.
  assert (Hb : b < 101) by (rewrite <- (seq_length 101 0), <- (map_length (c (Z.of_nat l))); apply nth_error_Some; congruence).
  rewrite bins_nth in Hx by lia. injection Hx as <-. apply S.
Qed.
Lemma Forall2_map_l {A B} (f : A -> B) (P : A -> B -> Prop) l : (forall a, In a l -> P a (f a)) -> Forall2 P l (map f l).
Proof. induction l as [|a l IH]; intros H; constructor; [apply H; left; reflexivity|apply IH; intros x Hx; apply H; right; exact Hx]. Qed.
Lemma Forall2_map_r {A B C} (f : B -> C) (P : A -> C -> Prop) a b : Forall2 (fun x y => P x (f y)) a b -> Forall2 P a (map f b).
Proof. induction 1; constructor; auto. Qed.

(* whatever the evaluator: if all label numbers and recall indices fit *)
Lemma arrays_ok eps bin order ious scores e datums : descending order -> ious <> [] -> scores <> [] ->
  let n := List.length (de_labels e) in
  (forall r, In r (List.concat (de_detailed e)) -> datums r = true -> (0 <= d_gt r)%Z -> inside n (d_gl r)) ->
  (forall r, In r (List.concat (de_ranked e)) -> datums r = true -> inside n (d_pl r)) ->
  (forall t p, In t ious -> In p (fst (running eps t run0 (filter datums (List.concat (de_ranked e))))) ->
     bin (snd p) (rep_gts e datums (d_pl (fst (fst p)))) <= 100) ->
  exists G C P, np_precision_recall eps bin order ious scores e datums = AOk (G, C, P) /\
    array_of n G (fun l x => x = rep_gts e datums (Z.of_nat l)) /\
    Forall2 (fun t row => Forall2 (fun s c => array_of n (fst c) (fun l x => x = rep_tp eps e datums t s (Z.of_nat l)) /\
                                              array_of n (snd c) (fun l x => x = rep_fp eps e datums t s (Z.of_nat l))) scores row) ious C /\
    Forall2 (fun t p => array_of n p (fun l row => array_of 101 row (fun b x =>
        (fst x == fst (fst (fold_left (fun st tb => eval_gstep eps bin (rep_gts e datums) t st (filter datums tb)) (de_ranked e) (curve0, run0)) (Z.of_nat l) b))%Q /\
        snd x = snd (fst (fold_left (fun st tb => eval_gstep eps bin (rep_gts e datums) t st (filter datums tb)) (de_ranked e) (curve0, run0)) (Z.of_nat l) b)))) ious P.
Proof.
  intros Ho Hi Hs n H1 H2 H3. unfold np_precision_recall.
  destruct ious as [|t0 ious0] eqn:Ei; [congruence|]. destruct scores as [|s0 scores0] eqn:Es; [congruence|]. rewrite <- Ei, <- Es in *. fold n.
  rewrite (np_gts_ok n datums (de_detailed e) H1). cbn [abind]. fold (rep_gts e datums). change (det_gt_count datums (de_detailed e)) with (rep_gts e datums).
  assert (Ec : map (fun _ : Z => map (fun _ : Z => (repeat 0 n, repeat 0 n)) scores) ious
               = counts_of ious scores n (fun t s l => dc_tp (MkDC 0 0)) (fun t s l => dc_fp (MkDC 0 0))).
  { unfold counts_of. rewrite tab_repeat. reflexivity. }
  assert (Er : map (fun _ : Z => repeat (0, 0) n) ious = map (fun t => tab n (snd (curve0, run0))) ious) by (rewrite tab_repeat; reflexivity).
  assert (Ep : map (fun _ : Z => repeat (repeat (0%Q, 0%Z) 101) n) ious = map (grid n) (map (fun _ => curve0) ious)).
  { rewrite map_map. apply map_ext. intros _. unfold grid. rewrite tab_repeat. apply tab_ext. intros l _. reflexivity. }
  rewrite Ec, Er, Ep.
  destruct (tables_ok eps bin order Ho ious scores n (rep_gts e datums) datums (de_ranked e) (fun _ => (curve0, run0)) (fun _ _ _ => MkDC 0 0) (map (fun _ => curve0) ious)) as (cs & R' & E & F).
  - exact H2.
  - intros t p Ht Hp. cbn [snd] in Hp. split; cbn [fst snd pt_key]; [|apply (H3 t p Ht Hp)].
    assert (Hrow : In (fst (fst p)) (filter datums (List.concat (de_ranked e)))).
    { rewrite <- (running_rows eps t _ run0). apply (in_map (fun q => fst (fst q)) _ p Hp). }
    apply filter_In in Hrow. apply H2; apply Hrow.
  - apply Forall2_map_l. intros t _ l b. split; reflexivity.
  - match type of E with ?l = _ => match goal with |- context [abind (afold ?f ?a ?b) _] => change (afold f a b) with l end end.
    rewrite E. cbn [abind fst snd a_panels].
    eexists. eexists. eexists. split; [reflexivity|]. split; [apply array_of_tab|]. split.
    + unfold counts_of. apply Forall2_map_l. intros t _. apply Forall2_map_l. intros s _. cbn [fst snd]. split; apply (array_of_tab n (fun l => _)).
    + apply Forall2_map_r. eapply Forall2_weaken; [|exact F]. cbn beta. intros t c Hc. apply array_of_grid. exact Hc.
Qed.

(* ------------------------------------------------------------------ *)
(** * The two readings of the recall index *)

Lemma ceqb_pair a b l k : ceqb (a, b) (l, k) = (a =? l)%Z && Nat.eqb b k.
Proof.
  destruct (ceqb (a, b) (l, k)) eqn:E.
  - apply ceqb_true in E. injection E as -> ->. rewrite Z.eqb_refl, Nat.eqb_refl. reflexivity.
  - destruct ((a =? l)%Z && Nat.eqb b k) eqn:F; [|reflexivity]. exfalso. apply andb_true_iff in F. destruct F as [F1 F2].
    apply Z.eqb_eq in F1. apply Nat.eqb_eq in F2. assert (X : ceqb (a, b) (l, k) = true) by (apply ceqb_true; congruence). congruence.
Qed.
Definition same_fun (c c' : curve) : Prop := forall l b, c l b = c' l b.

Section Readings.
  Variables (eps : Z) (bin : nat -> nat -> nat) (g : Z -> nat) (t : Z) (datums : drow -> bool) (pin : Z -> nat -> drow * nat * nat -> bool).
  Hypothesis Hpin : forall l b p, pin l b p = ceqb (pt_key bin g p) (l, b).
  Local Notation step := (fun st rows =>
    let '(pts, run) := running eps t (snd st) rows in
    ((fun l b =>
        let mine := filter (pin l b) pts in
        (fold_left (fun m p => Qmax m (pt_precision p)) mine (fst (fst st l b)),
         match mine with
         | [] => snd (fst st l b)
         | p :: _ => Z.max (snd (fst st l b)) (d_score (fst (fst p)))
         end)) : curve, run)).
  Lemma reading tables : forall c c' run, same_fun c c' ->
    same_fun (fst (fold_left (fun st tb => eval_gstep eps bin g t st (filter datums tb)) tables (c, run)))
             (fst (fold_left (fun st tb => step st (filter datums tb)) tables (c', run))).
  Proof.
    induction tables as [|tb rest IH]; intros c c' run Hc; [exact Hc|]. cbn [fold_left]. unfold eval_gstep at 2. cbn [snd fst].
    destruct (running eps t run (filter datums tb)) as [pts run']. apply IH. intros l b. unfold upd_gcurve.
    rewrite (filter_ext _ _ (fun p => eq_sym (Hpin l b p))), (Hc l b). reflexivity.
  Qed.
End Readings.

Lemma reading_exact eps g t datums tables :
  same_fun (fst (fold_left (fun st tb => eval_gstep eps exact_index g t st (filter datums tb)) tables (curve0, run0))) (eval_curve eps t g datums tables).
Proof.
  refine (reading eps exact_index g t datums (pt_in g) _ tables curve0 curve0 run0 (fun _ _ => eq_refl)).
  intros l b p. unfold pt_key. rewrite ceqb_pair. reflexivity.
Qed.
Lemma reading_float eps g t datums tables :
  same_fun (fst (fold_left (fun st tb => eval_gstep eps fbin g t st (filter datums tb)) tables (curve0, run0))) (eval_fcurve eps t g datums tables).
Proof.
  refine (reading eps fbin g t datums (pt_fin g) _ tables curve0 curve0 run0 (fun _ _ => eq_refl)).
  intros l b p. unfold pt_key. rewrite ceqb_pair. reflexivity.
Qed.

(* ------------------------------------------------------------------ *)
(** * Boundaries are not negative, so a threshold of zero or less finds nothing *)

Lemma later_nonneg unit : (0 <= unit)%Z -> forall ious rm last, (0 <= last)%Z -> Forall (fun x => (0 <= x)%Z) ious ->
  Forall (fun x => (0 <= x)%Z) (later_boundaries unit rm last ious).
Proof.
  intros Hu. induction ious as [|x u IH]; intros rm last Hl H; [constructor|]. inversion H as [|? ? Hx Hr]; subst. cbn [later_boundaries].
  destruct (rm <? Z.max rm x)%Z; constructor; try lia; apply IH; assumption.
Qed.
Lemma gt_nonneg unit ious : (0 <= unit)%Z -> Forall (fun x => (0 <= x)%Z) ious -> Forall (fun x => (0 <= x)%Z) (gt_boundaries unit ious).
Proof.
  intros Hu H. destruct ious as [|x [|y u]]; cbn [gt_boundaries]; [constructor|constructor; [lia|constructor]|].
  inversion H as [|? ? Hx Hr]; subst. constructor; [lia|]. apply later_nonneg; assumption.
Qed.
Lemma scatter_Forall {V} (P : V -> Prop) mask : forall vals out, Forall P vals -> Forall P out -> Forall P (scatter mask vals out).
Proof.
  induction mask as [|m mask IH]; intros vals out Hv Ho; [exact Ho|]. destruct out as [|o out]; [destruct m; exact Ho|].
  inversion Ho as [|? ? H1 H2]; subst. cbn [scatter].
  destruct m; [destruct vals as [|v vals]; [|inversion Hv as [|? ? H3 H4]; subst]|]; constructor; try assumption; apply IH; assumption.
Qed.
Lemma boundaries_nonneg unit R : (0 <= unit)%Z -> (forall r, In r R -> (0 <= d_iou r)%Z) -> Forall (fun x => (0 <= x)%Z) (ranking_boundaries unit R).
Proof.
  intros Hu H. unfold ranking_boundaries.
  assert (H0 : Forall (fun x => (0 <= x)%Z) (map (fun _ : drow => (2 * unit)%Z) R)).
  { apply Forall_forall. intros x Hx. apply in_map_iff in Hx. destruct Hx as (_ & <- & _). lia. }
  revert H0. generalize (map (fun _ : drow => (2 * unit)%Z) R). generalize (isort zzz_leb (dkeys zzz_dec gt_key (fun r => (0 <=? d_gt r)%Z) R)).
  intros ks. induction ks as [|k ks IH]; intros out Ho; [exact Ho|]. cbn [fold_left]. apply IH. apply scatter_Forall; [|exact Ho].
  apply gt_nonneg; [exact Hu|]. apply Forall_forall. intros x Hx. apply in_map_iff in Hx. destruct Hx as (r & <- & Hr). apply filter_In in Hr. apply H, Hr.
Qed.
Lemma map2_In {A B C} (f : A -> B -> C) a : forall b x, In x (map2 f a b) -> exists y z, In y a /\ In z b /\ x = f y z.
Proof.
  induction a as [|y a IH]; intros [|z b] x H; cbn in H; try contradiction. destruct H as [<-|H]; [exists y, z; cbn; auto|].
  destruct (IH b x H) as (y' & z' & A1 & A2 & A3). exists y', z'. cbn. auto.
Qed.
Lemma rank_prev unit t r : (0 <= unit)%Z -> (forall x, In x t -> (0 <= d_iou x)%Z) -> In r (rank_table unit t) -> (0 <= d_prev r)%Z /\ (0 <= d_pd r)%Z.
Proof.
  intros Hu H Hr. unfold rank_table in Hr. apply map2_In in Hr. destruct Hr as (r0 & b & H0 & Hb & ->). cbn [d_prev set_prev d_pd].
  assert (X := boundaries_nonneg unit (rank_pairs (table_sort_by det_sorting t)) Hu).
  split.
  - refine (proj1 (Forall_forall _ _) (X _) b Hb). intros x Hx. apply rank_pairs_In in Hx. apply H.
    apply Hx.
  - apply rank_pairs_In in H0. destruct H0 as (_ & H0 & _). apply H0.
Qed.

(* no hits: every running count of hits is zero *)
Lemma running_no_hits eps t rows : forall run, (forall l, snd (run l) = 0) -> (forall r, In r rows -> tp_outer eps t r = false) ->
  forall p, In p (fst (running eps t run rows)) -> snd p = 0.
Proof.
  induction rows as [|r u IH]; intros run Hrun H p Hp; [destruct Hp|]. cbn [running] in Hp.
  assert (Hl := Hrun (d_pl r)). destruct (run (d_pl r)) as [total tp]. cbn [snd] in Hl. subst tp. rewrite (H r (or_introl eq_refl)) in Hp.
  specialize (IH (upd_run run (d_pl r) (S total, 0))). destruct (running eps t (upd_run run (d_pl r) (S total, 0)) u) as [pts run']. cbn [fst] in *.
  destruct Hp as [<-|Hp]; [reflexivity|]. apply IH; [|intros x Hx; apply H; right; exact Hx|exact Hp].
  intros l. unfold upd_run. destruct (Z.eqb _ _); [reflexivity|apply Hrun].
Qed.

(* ------------------------------------------------------------------ *)
(** * Evaluators built from data *)

Section End_.
  Variables (eps unit : Z) (ds : list detection).
  Hypothesis Hin : det_input unit ds.
  Variables (sel : detection -> bool) (datums : drow -> bool).
  Hypothesis Hsel : det_selects ds datums sel.
  Variable e : deval.
  Hypothesis Hu : (0 <= unit)%Z.
  Hypothesis He : det_evaluator eps unit ds e.
  Hypothesis Hfew : few_det_labels ds.
  Local Notation n := (List.length (de_labels e)).

  Lemma ok_all : Forall (fun d => det_ok d = true) ds.
  Proof. eapply Forall_impl; [|exact Hin]. intros d H. apply H. Qed.

  Lemma end_gt_inside r : In r (List.concat (de_detailed e)) -> (0 <= d_gt r)%Z -> inside n (d_gl r).
  Proof.
    intros Hr H0. destruct (end_facts eps unit ds Hin e He) as (L & Hst & _ & _ & _ & _ & HL & _). rewrite HL.
    apply (stored_rows' eps ds L _ ok_all Hst) in Hr. destruct (described_gt _ _ _ _ Hr H0) as (i & d & g & ga & j & gl & gi & _ & _ & _ & E & _ & _ & -> & _).
    apply index_of_nth in E. assert (gi < List.length L) by (apply nth_error_Some; congruence). unfold inside. lia.
  Qed.

  Lemma end_ranked_row r : In r (List.concat (de_ranked e)) -> inside n (d_pl r) /\ (0 <= d_prev r)%Z.
  Proof.
    intros Hr. destruct (end_facts eps unit ds Hin e He) as (L & Hst & HR & _ & _ & _ & HL & _). rewrite HL.
    destruct (ranked_In _ _ _ _ HR Hr) as (tb & r0 & Htb & Hr0 & Hs & Hrt).
    assert (Hd : forall x, In x tb -> described eps ds L x).
    { intros x Hx. apply (stored_rows' eps ds L _ ok_all Hst). apply in_concat. exists tb. auto. }
    destruct (rank_prev unit tb r Hu) as (A & B); [|exact Hrt|].
    { intros x Hx. destruct (Hd x Hx) as [i d g ga gl rest gi Hi Hg El Ha E|i d p pa k pl s pi Hi Hp Hk1 Hk2 Ha E
        |i d g ga j gl gi p pa k pl s pi Hi Hg Hp Hj Hk1 Hk2 Hiou E E']; cbn; [lia|lia|].
      refine (proj1 (proj2 (proj2 (proj1 (Forall_forall _ _) Hin d _)) p g)). apply (nth_error_In _ _ Hi). }
    split; [|exact A]. destruct (strip_fields r r0 Hs) as (_ & _ & _ & Ep & El & _).
    destruct (described_pd _ _ _ _ (Hd r0 Hr0)) as (i & d & p & pa & k & pl & s & pi & _ & _ & _ & _ & E & _ & _ & E2 & _); [lia|].
    rewrite <- El, E2. apply index_of_nth in E. assert (pi < List.length L) by (apply nth_error_Some; congruence). unfold inside. lia.
  Qed.

  Lemma end_point t p : In p (fst (running eps t run0 (filter datums (List.concat (de_ranked e))))) ->
    snd p = 0 \/ exists v, In v (det_labels ds) /\ rep_gts e datums (d_pl (fst (fst p))) = gts_with sel ds v /\ snd p <= gts_with sel ds v.
  Proof.
    intros Hp.
    assert (Hrow : In (fst (fst p)) (filter datums (List.concat (de_ranked e)))).
    { rewrite <- (running_rows eps t _ run0). apply (in_map (fun q => fst (fst q)) _ p Hp). }
    apply filter_In in Hrow. destruct Hrow as [Hrow _].
    destruct (Z.le_gt_cases t 0) as [Ht|Ht].
    - left. refine (running_no_hits eps t _ run0 (fun _ => eq_refl) _ p Hp). intros r Hr. apply filter_In in Hr. destruct Hr as [Hr _].
      destruct (end_ranked_row r Hr) as [_ H]. unfold tp_outer, iou_mask. replace (d_prev r <? t)%Z with false by (symmetry; apply Z.ltb_ge; lia).
      rewrite !andb_false_r. reflexivity.
    - right. destruct (end_ranked_row _ Hrow) as [Hl _].
      assert (Hax : In (d_pl (fst (fst p))) (label_axis e)).
      { unfold label_axis. apply in_map_iff. exists (Z.to_nat (d_pl (fst (fst p)))). unfold inside in Hl. split; [apply Z2Nat.id; lia|]. apply in_seq. lia. }
      destruct (axis_label eps unit ds Hin e _ He Hax) as (v & vi & Hv & El). exists v. 
      split; [apply (det_label_exists eps unit ds Hin e v He); exists vi; exact Hv|].
      rewrite El. split; [apply (end_gts eps unit ds Hin sel datums Hsel e He v vi Hv)|].
      apply (point_bound eps unit ds Hin sel datums Hsel e Hu He Hfew v vi Hv t Ht p Hp El).
  Qed.

  Section Order.
    Variable order : list (cell * Q) -> list (cell * Q).
    Hypothesis Ho : descending order.
    Variables ious scores : list Z.
    Hypothesis Hi : ious <> [].
    Hypothesis Hs : scores <> [].

    Lemma end_arrays : exists G C P, np_precision_recall eps exact_index order ious scores e datums = AOk (G, C, P) /\
      array_of n G (fun l x => x = rep_gts e datums (Z.of_nat l)) /\
      Forall2 (fun t row => Forall2 (fun s c => array_of n (fst c) (fun l x => x = rep_tp eps e datums t s (Z.of_nat l)) /\
                                                array_of n (snd c) (fun l x => x = rep_fp eps e datums t s (Z.of_nat l))) scores row) ious C /\
      Forall2 (fun t p => array_of n p (fun l row => array_of 101 row (fun b x =>
        (fst x == rep_curve eps e datums t (Z.of_nat l) b)%Q /\ snd x = rep_bin_score eps e datums t (Z.of_nat l) b))) ious P.
    Proof.
      destruct (arrays_ok eps exact_index order ious scores e datums Ho Hi Hs) as (G & C & P & E & A1 & A2 & A3).
      - intros r Hr _ H0. apply end_gt_inside; assumption.
      - intros r Hr _. apply end_ranked_row. exact Hr.
      - intros t p _ Hp. unfold exact_index. destruct (end_point t p Hp) as [->|(v & _ & -> & H)].
        + rewrite Nat.mul_0_r. destruct (rep_gts e datums (d_pl (fst (fst p)))) as [|k]; [cbn; lia|rewrite Nat.div_0_l; lia].
        + destruct (gts_with sel ds v) eqn:Eg; [cbn; lia|]. apply Nat.div_le_upper_bound; lia.
      - exists G, C, P. split; [exact E|]. split; [exact A1|]. split; [exact A2|].
        eapply Forall2_weaken; [|exact A3]. intros t p (B1 & B2). split; [exact B1|]. intros l row Hrow. destruct (B2 l row Hrow) as (D1 & D2). split; [exact D1|].
        intros b x Hx. destruct (D2 b x Hx) as (F1 & F2). rewrite (reading_exact eps (rep_gts e datums) t datums (de_ranked e) (Z.of_nat l) b) in F1, F2. split; assumption.
    Qed.

    Lemma end_arrays_float : few_annotations ds -> exists G C P, np_precision_recall eps fbin order ious scores e datums = AOk (G, C, P) /\
      array_of n G (fun l x => x = rep_gts e datums (Z.of_nat l)) /\
      Forall2 (fun t row => Forall2 (fun s c => array_of n (fst c) (fun l x => x = rep_tp eps e datums t s (Z.of_nat l)) /\
                                                array_of n (snd c) (fun l x => x = rep_fp eps e datums t s (Z.of_nat l))) scores row) ious C /\
      Forall2 (fun t p => array_of n p (fun l row => array_of 101 row (fun b x =>
        (fst x == rep_fcurve eps e datums t (Z.of_nat l) b)%Q /\ snd x = snd (eval_fcurve eps t (rep_gts e datums) datums (de_ranked e) (Z.of_nat l) b)))) ious P.
    Proof.
      intros Hann. destruct (arrays_ok eps fbin order ious scores e datums Ho Hi Hs) as (G & C & P & E & A1 & A2 & A3).
      - intros r Hr _ H0. apply end_gt_inside; assumption.
      - intros r Hr _. apply end_ranked_row. exact Hr.
      - intros t p _ Hp. destruct (end_point t p Hp) as [->|(v & _ & -> & H)].
        + rewrite fbin_zero. lia.
        + assert (HG : (Z.of_nat (gts_with sel ds v) < 2 ^ 31)%Z).
          { destruct Hann as (_ & Hg & _). assert (Y := gts_with_bound sel v ds). lia. }
          change (2 ^ 31)%Z with 2147483648%Z in HG.
          destruct (Nat.eq_dec (gts_with sel ds v) 0) as [E0|E0]; [replace (snd p) with 0 by lia; rewrite fbin_zero; lia|].
          rewrite fbin_spec; [|exact H|lia|change (2 ^ 44)%Z with 17592186044416%Z; lia].
          assert (ebin (snd p) (gts_with sel ds v) <= 100) by (unfold ebin; apply Nat.div_le_upper_bound; lia). destruct (_ && _); lia.
      - exists G, C, P. split; [exact E|]. split; [exact A1|]. split; [exact A2|].
        eapply Forall2_weaken; [|exact A3]. intros t p (B1 & B2). split; [exact B1|]. intros l row Hrow. destruct (B2 l row Hrow) as (D1 & D2). split; [exact D1|].
        intros b x Hx. destruct (D2 b x Hx) as (F1 & F2). rewrite (reading_float eps (rep_gts e datums) t datums (de_ranked e) (Z.of_nat l) b) in F1, F2. split; assumption.
    Qed.
  End Order.
End End_.

(* ------------------------------------------------------------------ *)
(** * Finalizing a second time, in files *)

Lemma file_refinalize unit bs rpf rb b b' labels b'' labels' :
  dfb_finalize unit bs rpf rb b = (b', Done labels) -> dfb_finalize unit bs rpf rb b' = (b'', Done labels') ->
  de_detailed (dfe b'' labels') = de_detailed (dfe b' labels) /\ labels' = labels.
Proof.
  unfold dfb_finalize. set (w := file_flush (dfb_detailed b)).
  destruct (Nat.eqb (file_count_rows (f_dir w)) 0); [discriminate|].
  set (w2 := file_sort_by (table_sort_by det_sorting) w).
  destruct (rank_ops unit KFile bs rpf rb (file_tables (f_dir w2))) as [ops|]; [|discriminate].
  intros E. injection E as <- <-. cbn [dfb_detailed dfb_loader dfb_ranked].
  assert (E1 : f_dir (file_flush w2) = f_dir w2) by reflexivity.
  destruct (Nat.eqb _ 0); [discriminate|].
  assert (E2 : f_dir (file_sort_by (table_sort_by det_sorting) (file_flush w2)) = f_dir w2).
  { unfold file_sort_by at 1. cbn [f_dir file_flush f_buffer]. unfold w2, file_sort_by. cbn [f_dir file_flush f_buffer]. rewrite map_map. apply map_ext.
    intros [k tb]. cbn [fst snd]. apply f_equal. apply dsort_idem. }
  rewrite E2. destruct (rank_ops _ _ _ _ _ _) as [ops'|]; [|discriminate]. intros E. injection E as <- <-.
  unfold dfe. cbn [de_detailed dfb_detailed]. rewrite E2. split; reflexivity.
Qed.
