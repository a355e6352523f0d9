(* Object detection: the ground truth a prediction is paired with, ties included. *)
From Verif Require Import Prelude Counting CacheModel CacheSpec CacheProofs SortProofs FlowModel FlowProofs ClsModel ClsSpec ClsLabelProofs
  DetModel DetSpec DetMatchProofs DetRankProofs DetCountProofs DetApProofs DetApEnd DetLoaderProofs DetStoreProofs DetFlowModel DetLocalProofs DetMain DetOrderProofs
  DetReportModel DetEnd DetMore DetImage DetPickSpec.
From Coq Require Import String Lia QArith.
Local Open Scope nat_scope.
Local Open Scope list_scope.
Local Notation length := List.length (only parsing).
Local Notation concat := List.concat (only parsing).

(* ------------------------------------------------------------------ *)
(** * The order of the rows of an image *)

(* rows that carry a ground truth come in the order of the ground truths *)
Definition gt_order (x y : drow) : Prop := (0 <= d_gt x)%Z -> (0 <= d_gt y)%Z -> (d_gt x <= d_gt y)%Z.
Definition full_order (x y : drow) : Prop := det_leb x y = true /\ (det_leb y x = true -> gt_order x y).

Lemma flat_map_sorted {A B} (P : B -> B -> Prop) (f : A -> list B) l :
  (forall a, In a l -> StronglySorted P (f a)) ->
  StronglySorted (fun a b => forall x y, In x (f a) -> In y (f b) -> P x y) l ->
  StronglySorted P (flat_map f l).
Proof.
  intros H S. induction S as [|a l S IH F]; [constructor|]. cbn. apply StronglySorted_app. split; [apply H; left; reflexivity|].
  split; [apply IH; intros b Hb; apply H; right; exact Hb|]. intros x y Hx Hy. apply in_flat_map in Hy. destruct Hy as (b & Hb & Hy).
  rewrite Forall_forall in F. apply (F b Hb x y Hx Hy).
Qed.
Lemma sorted_all {A} (P : A -> A -> Prop) l : (forall x y, In x l -> In y l -> P x y) -> StronglySorted P l.
Proof.
  induction l as [|a l IH]; intros H; [constructor|]. constructor; [apply IH; intros x y Hx Hy; apply H; right; assumption|].
  apply Forall_forall. intros y Hy. apply H; [left; reflexivity|right; exact Hy].
Qed.
Lemma sorted_impl {A} (P Q : A -> A -> Prop) l : (forall x y, P x y -> Q x y) -> StronglySorted P l -> StronglySorted Q l.
Proof. intros H S. induction S as [|a l S IH F]; constructor; [exact IH|]. eapply Forall_impl; [|exact F]. intros y. apply H. Qed.
Lemma filter_swap {A} (f g : A -> bool) l : filter f (filter g l) = filter g (filter f l).
Proof. rewrite !filter_filter. apply filter_ext. intros x. apply andb_comm. Qed.
Lemma enum_sorted {A} (l : list A) : StronglySorted (fun a b => fst a < fst b) (enum l).
Proof.
  unfold enum. generalize 0 as k. induction l as [|x l IH]; intros k; cbn; [constructor|]. constructor; [apply IH|].
  apply Forall_forall. intros [i y] H. apply in_combine_l in H. apply in_seq in H. cbn. lia.
Qed.

Definition item_gt (x : item) : option nat :=
  match x with ILabel _ => None | IGt g _ _ => Some g | IPd _ _ _ _ => None | IPair g _ _ _ _ _ _ => Some g end.
Lemma gt_items_gt eps d ig x n : In x (gt_items eps d ig) -> item_gt x = Some n -> n = fst ig.
Proof.
  unfold gt_items. destruct (a_labels (snd ig)) as [|gl rest]; [intros []|]. intros [<-|H] E.
  - destruct (gt_alone eps d (fst ig)); cbn in E; congruence.
  - unfold gt_pd_items in H. apply in_flat_map in H. destruct H as (ip & _ & H). apply in_app_iff in H. destruct H as [H|H].
    + destruct (pd_alone eps d (fst ip)); [|destruct H]. unfold pd_items in H. apply in_map_iff in H. destruct H as (ls & <- & _). discriminate.
    + destruct (eps <=? t_iou d (fst ip) (fst ig))%Z; [|destruct H]. unfold pair_items in H. apply in_flat_map in H. destruct H as (l & _ & H).
      apply in_map_iff in H. destruct H as (ls & <- & _). cbn in E. congruence.
Qed.
Lemma item_row_gt d i gb pb L x r : In r (item_row d i gb pb L x) -> (0 <= d_gt r)%Z -> exists n, item_gt x = Some n /\ d_gt r = Z.of_nat (gb + n).
Proof.
  destruct x; cbn; intros H H0; [destruct H| | |]; (destruct H as [<-|[]]; cbn in H0).
  - exists g. split; reflexivity.
  - lia.
  - exists g. split; reflexivity.
Qed.

Lemma item_rows_order eps d i gb pb L : StronglySorted gt_order (flat_map (item_row d i gb pb L) (items eps d)).
Proof.
  assert (E : forall x y r r', In r (item_row d i gb pb L x) -> In r' (item_row d i gb pb L y) ->
    (forall m n, item_gt x = Some m -> item_gt y = Some n -> m <= n) -> gt_order r r').
  { intros x y r r' Hr Hr' H Q Q'. destruct (item_row_gt _ _ _ _ _ _ _ Hr Q) as (m & Em & ->).
    destruct (item_row_gt _ _ _ _ _ _ _ Hr' Q') as (n & En & ->). specialize (H m n Em En). lia. }
  apply flat_map_sorted.
  - intros x _. apply sorted_all. intros r r' Hr Hr'. apply (E x x r r' Hr Hr'). intros m n A B. assert (m = n) by congruence. lia.
  - apply (sorted_impl (fun x y => forall m n, item_gt x = Some m -> item_gt y = Some n -> m <= n)); [intros x y H r r' Hr Hr'; apply (E x y r r' Hr Hr' H)|].
    unfold items. destruct (t_gts d) as [|g0 gs] eqn:Eg.
    + apply sorted_all. intros x y Hx _ m n A _. apply in_flat_map in Hx. destruct Hx as (ip & _ & Hx). unfold pd_items in Hx.
      apply in_map_iff in Hx. destruct Hx as (ls & <- & _). discriminate.
    + rewrite <- Eg. clear Eg g0 gs. apply flat_map_sorted.
      * intros ig _. apply sorted_all. intros x y Hx Hy m n A B. rewrite (gt_items_gt _ _ _ _ _ Hx A), (gt_items_gt _ _ _ _ _ Hy B). lia.
      * apply (sorted_impl (fun a b : nat * annotation => fst a < fst b)); [|apply enum_sorted]. intros a b H x y Hx Hy m n A B.
        rewrite (gt_items_gt _ _ _ _ _ Hx A), (gt_items_gt _ _ _ _ _ Hy B). lia.
Qed.

Lemma dsort_stable l : stable_sort_of det_leb l (dsort l).
Proof. apply isort_stable; [apply det_leb_total|apply det_leb_trans]. Qed.

Lemma picks_spec d p g l : picks d p g l = true <->
  (forall g' ga', nth_error (t_gts d) g' = Some ga' -> has_label l ga' = true -> (t_iou d p g' <= t_iou d p g)%Z) /\
  (forall g' ga', nth_error (t_gts d) g' = Some ga' -> has_label l ga' = true -> g' < g -> (t_iou d p g' < t_iou d p g)%Z).
Proof.
  unfold picks. rewrite forallb_forall. split.
  - intros H. split; intros g' ga' Hg Hl; specialize (H (g', ga')); cbn [fst snd] in H; rewrite Hl in H; cbn [negb orb] in H;
      assert (X := H (proj2 (numbered_In _ _ _) Hg)).
    + destruct (g' <? g)%nat; lia.
    + intros Hlt. replace (g' <? g)%nat with true in X by (symmetry; apply Nat.ltb_lt; exact Hlt). lia.
  - intros [H1 H2] [g' ga'] Hg. apply numbered_In in Hg. cbn [fst snd]. destruct (has_label l ga') eqn:E; [|reflexivity]. cbn [negb orb].
    specialize (H1 g' ga' Hg E). specialize (H2 g' ga' Hg E). destruct (Nat.ltb_spec g' g) as [X|X]; [specialize (H2 X)|]; lia.
Qed.
Lemma picks_unique d p g g' ga ga' l : nth_error (t_gts d) g = Some ga -> nth_error (t_gts d) g' = Some ga' ->
  has_label l ga = true -> has_label l ga' = true -> picks d p g l = true -> picks d p g' l = true -> g = g'.
Proof.
  intros Hg Hg' Hl Hl' H H'. apply picks_spec in H, H'. destruct H as [A B], H' as [A' B'].
  specialize (A g' ga' Hg' Hl'). specialize (A' g ga Hg Hl). specialize (B g' ga' Hg' Hl'). specialize (B' g ga Hg Hl).
  destruct (Nat.lt_trichotomy g g') as [X|[X|X]]; [specialize (B' X); lia|exact X|specialize (B X); lia].
Qed.

(* ------------------------------------------------------------------ *)
(** * The ranked row of a prediction *)

Section Pick.
  Variables (eps unit : Z) (ds : list detection) (L : list string) (tables : list (list drow)) (R : list drow).
  Hypothesis Hu : (0 <= unit)%Z.
  Hypothesis Hin : det_input unit ds.
  Hypothesis Hst : det_stored eps ds L tables.
  Hypothesis HR : ranked_of unit tables R.
  Hypothesis Hfew : few L.
  Hypothesis Hord : forall i d, nth_error ds i = Some d ->
    filter (of_datum (Z.of_nat i)) (concat tables) = dsort (flat_map (item_row d i (gts_before ds i) (pds_before ds i) L) (items eps d)).

  Lemma table_order t i d : In t tables -> nth_error ds i = Some d -> StronglySorted full_order (filter (of_datum (Z.of_nat i)) (dsort t)).
  Proof.
    intros Ht Hi.
    assert (S : StronglySorted full_order (filter (of_datum (Z.of_nat i)) (concat tables))).
    { rewrite (Hord i d Hi). unfold full_order. apply (stable_sort_lex det_leb det_leb_total gt_order _ _ (dsort_stable _)). apply item_rows_order. }
    assert (St : StronglySorted full_order (filter (of_datum (Z.of_nat i)) t)).
    { apply in_split in Ht. destruct Ht as (t1 & t2 & ->). rewrite concat_app in S. cbn in S. rewrite !filter_app in S.
      apply StronglySorted_app in S. destruct S as (_ & S & _). apply StronglySorted_app in S. tauto. }
    apply (sorted_impl (fun x y => det_leb x y = true /\ (det_leb y x = true -> full_order x y))).
    - intros x y [A B]. split; [exact A|]. intros C. apply (B C). exact C.
    - apply (stable_sort_lex det_leb det_leb_total full_order (filter (of_datum (Z.of_nat i)) t)); [|exact St].
      apply stable_sort_filter. apply dsort_stable.
  Qed.

  Lemma ranked_row_picks r : In r R -> label_match r = true ->
    exists i d g ga p pa n sc, nth_error ds i = Some d /\ nth_error (t_gts d) g = Some ga /\ nth_error (t_pds d) p = Some pa /\
      d_datum r = Z.of_nat i /\ d_gt r = gt_id ds i g /\ d_pd r = pd_id ds i p /\ d_iou r = t_iou d p g /\ d_score r = sc /\
      (eps <= t_iou d p g)%Z /\
      exists l li, index_of l L = Some li /\ d_gl r = Z.of_nat li /\ d_pl r = Z.of_nat li /\ In l (a_labels ga) /\
        nth_error (a_labels pa) n = Some l /\ nth_error (a_scores pa) n = Some sc /\ picks d p g l = true.
  Proof.
    intros Hr Hm. destruct (ranked_In unit tables R r HR Hr) as (t & _ & Ht & _ & _ & Hr').
    destruct (rank_table_In unit t r Hr') as (r0 & Hr0 & E & Hr0t). assert (Hr0' := Hr0). apply rank_pairs_In in Hr0. destruct Hr0 as (_ & He & Hbest).
    apply strip_fields in E. destruct E as (Ed & Eg & Egl & Ep & Epl & Esc & Eio).
    assert (Hc : In r0 (concat tables)) by (apply in_concat; eauto).
    assert (Em : d_gl r0 = d_pl r0).
    { assert (X : label_match r0 = true) by (unfold label_match in *; rewrite Egl, Epl; exact Hm).
      rewrite (label_match_row eps unit ds L tables Hin Hst Hfew _ Hc) in X. apply Z.eqb_eq in X. exact X. }
    destruct He as [He1 He2]. assert (Hd := Hc). apply (stored_rows eps unit ds L tables Hin Hst) in Hd.
    destruct Hd as [i' d' g ga gl rest gi Hi' Hg El' Ha E|i' d' p' pa' k pl s' pi Hi' Hp' Hk1 Hk2 Ha E
        |i d g ga j gl gi p pa k pl s' pi Hi Hg Hp Hj Hk1 Hk2 Hiou E E']; cbn in *; try lia.
    assert (gi = pi) by lia. subst gi. assert (gl = pl) by (eapply index_of_inj; eauto). subst gl.
    exists i, d, g, ga, p, pa, k, s'. split; [exact Hi|]. split; [exact Hg|]. split; [exact Hp|]. split; [congruence|]. split; [congruence|].
    split; [congruence|]. split; [congruence|]. split; [congruence|]. split; [exact Hiou|].
    exists pl, pi. split; [exact E'|]. split; [congruence|]. split; [congruence|]. split; [apply (nth_error_In _ _ Hj)|].
    split; [exact Hk1|]. split; [exact Hk2|].
    set (r1 := MkD (t_uid d) (Z.of_nat i) (Some (a_uid ga)) (gt_id ds i g) (Some pl) (Z.of_nat pi)
                (Some (a_uid pa)) (pd_id ds i p) (Some pl) (Z.of_nat pi) s' (t_iou d p g) 0) in *.
    (* the rival row of another ground truth *)
    assert (X : forall g' ga', nth_error (t_gts d) g' = Some ga' -> has_label pl ga' = true -> (eps <= t_iou d p g')%Z ->
      (t_iou d p g' <= t_iou d p g)%Z /\ (g' < g -> t_iou d p g' <> t_iou d p g)).
    { intros g' ga' Hg' Hl' Hi'.
      unfold has_label in Hl'. apply existsb_exists in Hl'. destruct Hl' as (l' & Hl' & X). apply String.eqb_eq in X. subst l'.
      apply In_nth_error in Hl'. destruct Hl' as (j' & Hj').
      set (r2 := MkD (t_uid d) (Z.of_nat i) (Some (a_uid ga')) (gt_id ds i g') (Some pl) (Z.of_nat pi)
                (Some (a_uid pa)) (pd_id ds i p) (Some pl) (Z.of_nat pi) s' (t_iou d p g') 0).
      assert (Hr2 : In r2 (concat tables)).
      { apply (stored_rows eps unit ds L tables Hin Hst). eapply Desc_pair; eauto. }
      assert (Hr2t : In r2 t).
      { apply (pd_rows_table eps unit ds L tables Hin Hst t r1 r2 Ht Hr0t Hr2); [exact He1|reflexivity]. }
      assert (He : eligible t r2).
      { split; [exact He1|]. left. rewrite (label_match_row eps unit ds L tables Hin Hst Hfew _ Hr2). cbn. apply Z.eqb_refl. }
      split.
      - assert (Hb : det_leb r1 r2 = true) by (apply Hbest; [exact Hr2t|exact He|reflexivity]).
        apply det_leb_spec in Hb. cbn in Hb. lia.
      - intros Hlt Heq.
        apply (Permutation_in r1 (Permutation_sym (rank_pairs_perm _))) in Hr0'. apply firsts_In in Hr0'.
        destruct Hr0' as (l1 & l2 & El & _ & Hno).
        assert (Hi2 : In r2 (l1 ++ r1 :: l2)).
        { rewrite <- El. apply filter_In. split; [apply in_sorted_table; exact Hr2t|]. apply eligibleb_spec.
          apply (eligible_perm t); [intros x; symmetry; apply in_sorted_table|exact He]. }
        assert (S := table_order t i d Ht Hi). apply in_app_iff in Hi2. destruct Hi2 as [Hi2|[Hi2|Hi2]].
        + apply Hno. apply in_map_iff. exists r2. split; [reflexivity|exact Hi2].
        + assert (Q : gt_id ds i g = gt_id ds i g') by (change (d_gt r1 = d_gt r2); rewrite Hi2; reflexivity). unfold gt_id in Q. lia.
        + assert (Q : StronglySorted full_order (filter (of_datum (Z.of_nat i)) (l1 ++ r1 :: l2))).
          { rewrite <- El, filter_swap. apply StronglySorted_filter. exact S. }
          rewrite filter_app in Q. apply StronglySorted_app in Q. destruct Q as (_ & Q & _). cbn [filter] in Q.
          replace (of_datum (Z.of_nat i) r1) with true in Q by (symmetry; apply Z.eqb_refl).
          inversion Q as [|? ? _ F]; subst. rewrite Forall_forall in F.
          destruct (F r2) as [_ G]; [apply filter_In; split; [exact Hi2|apply Z.eqb_refl]|].
          assert (Z0 : gt_order r1 r2) by (apply G, det_leb_spec; cbn; lia). unfold gt_order in Z0. cbn in Z0. unfold gt_id in Z0. lia. }
    apply picks_spec. split; intros g' ga' Hg' Hl'; (destruct (Z.le_gt_cases eps (t_iou d p g')) as [Y|Y]; [|lia]);
      destruct (X g' ga' Hg' Hl' Y) as [X1 X2]; [exact X1|]. intros Hlt. specialize (X2 Hlt). lia.
  Qed.

  Section Selected.
    Variables (sel : detection -> bool) (datums : drow -> bool).
    Hypothesis Hsel : selects_ids ds datums sel.
    Variables (v : string) (vi : nat).
    Hypothesis Hv : index_of v L = Some vi.
    Local Notation F := (filter datums R).
    Local Notation RL := (filter (fun r => (d_pl r =? Z.of_nat vi)%Z) F).
    Local Notation mainok := (main_filter_ok eps unit ds L tables R Hu Hin Hst HR Hfew sel datums Hsel).

    Lemma picked_spec t s d g : picked eps t s d v g = true <->
      exists p pa n sc, nth_error (t_pds d) p = Some pa /\ nth_error (a_labels pa) n = Some v /\ nth_error (a_scores pa) n = Some sc /\
        (eps < sc)%Z /\ (s <= sc)%Z /\ (eps <= t_iou d p g)%Z /\ (t <= t_iou d p g)%Z /\ picks d p g v = true.
    Proof.
      unfold picked. rewrite existsb_exists. split.
      - intros ([p pa] & Hp & H). apply numbered_In in Hp. cbn [fst snd] in H. rewrite !andb_true_iff in H.
        destruct H as [[[H1 H2] H3] H4]. apply existsb_exists in H1. destruct H1 as ([l sc] & Hl & H1). cbn [fst snd] in H1.
        rewrite !andb_true_iff in H1. destruct H1 as [[H0 H1] H1']. apply String.eqb_eq in H0. subst l.
        apply combine_In_nth in Hl. destruct Hl as (n & Hn & Hs). exists p, pa, n, sc. repeat split; auto; lia.
      - intros (p & pa & n & sc & Hp & Hn & Hs & H1 & H2 & H3 & H4 & H5). exists (p, pa). split; [apply numbered_In; exact Hp|].
        cbn [fst snd]. rewrite H5. replace (eps <=? t_iou d p g)%Z with true by lia. replace (t <=? t_iou d p g)%Z with true by lia.
        rewrite !andb_true_r. apply existsb_exists. exists (v, sc). split; [apply combine_In_nth; eauto|]. cbn [fst snd].
        rewrite String.eqb_refl. cbn. lia.
    Qed.

    Lemma pick_tp t s : (0 < t)%Z -> Forall distinct_pd_labels ds ->
      dc_tp (det_counts_at eps t s (filter datums R) (Z.of_nat vi))
      = gts_where sel (fun d g => picked eps t s d v g) ds v.
    Proof.
      intros Ht Hdis. rewrite tp_count_spec by (exact mainok || exact Ht). unfold dcount.
      apply (count_gt_keys ds v (Z.of_nat vi)); [apply dkeys_NoDup|]. intros k. rewrite dkeys_In. unfold gt_key_of. split.
      - intros (r & Hr & Hb & <-). rewrite !andb_true_iff in Hb. destruct Hb as [[Hb1 Hb2] Hb3]. apply Z.eqb_eq in Hb2.
        unfold good_match in Hb3. destruct (best_match (filter datums R) (gt_key r) t) as [b|] eqn:Eb; [|discriminate].
        apply andb_true_iff in Hb3. destruct Hb3 as [Hs1 Hs2].
        destruct (best_match_key (filter datums R) _ _ _ Eb) as (Hbin & Ekey & Elab & Hbt).
        apply filter_In in Hbin. destruct Hbin as [HbR Hbd].
        assert (Hbm : label_match b = true) by (rewrite (R_match R (main_ranked_ok eps unit ds L tables R Hu Hin Hst HR Hfew) b HbR); lia).
        destruct (ranked_row_picks b HbR Hbm) as (i & d & g & ga & p & pa & n & sc & Hi & Hg & Hp & E1 & E2 & E3 & E4 & E5 & Hie & l & li & Hl & Hgl & Hpl & Hla & Hn & Hsn & Hpick).
        unfold gt_key in Ekey. inversion Ekey as [[K1 K2 K3]].
        assert (li = vi) by lia. subst li. assert (l = v) by (eapply index_of_inj; eauto). subst l.
        exists i, d, g, ga. split; [exact Hi|]. split; [rewrite <- (Hsel b i d E1 Hi); exact Hbd|]. split; [exact Hg|].
        split; [apply existsb_exists; exists v; split; [exact Hla|apply String.eqb_refl]|]. split.
        + apply picked_spec. exists p, pa, n, sc. split; [exact Hp|]. split; [exact Hn|]. split; [exact Hsn|]. split; [lia|]. split; [lia|].
          split; [exact Hie|]. split; [lia|]. exact Hpick.
        + unfold gt_key. congruence.
      - intros (i & d & g & ga & Hi & Hsd & Hg & Hl & Hok & ->).
        apply picked_spec in Hok. destruct Hok as (p & pa & n & sc & Hp & Hn & Hsn & H1 & H2 & H3 & H4 & H5).
        (* the ranked row of the prediction under v *)
        assert (Hmeet : meets eps d p v = true).
        { apply meets_spec. exists g, ga. split; [exact Hg|]. split; [|exact H3]. unfold has_label in Hl. apply existsb_exists in Hl.
          destruct Hl as (l' & Hl' & X). apply String.eqb_eq in X. subst l'. exact Hl'. }
        assert (Htp : takes_part eps d p pa v = true) by (unfold takes_part; rewrite Hmeet; reflexivity).
        apply (takes_part_iff eps unit ds L tables Hin Hst Hfew v vi Hv i d p pa n sc Hi Hp Hn Hsn) in Htp. apply (ranked_key_iff eps unit ds L tables R Hin Hst HR) in Htp. destruct Htp as (r & Hr & Ek).
        unfold pd_key in Ek. inversion Ek as [[F1 F2 F3]].
        (* it matches labels: eligible rows of a prediction that meets v *)
        assert (Hm : label_match r = true).
        { destruct (ranked_In unit tables R r HR Hr) as (t0 & _ & Ht0 & _ & _ & Hr').
          destruct (rank_table_In unit t0 r Hr') as (r0 & Hr0 & E & Hr0t). apply rank_pairs_In in Hr0. destruct Hr0 as (_ & He0 & _).
          apply strip_fields in E. destruct E as (Ed & Eg & Egl & Ep & Epl & Esc & Eio).
          assert (X : label_match r0 = true); [|unfold label_match in *; rewrite Egl, Epl in X; exact X].
          destruct He0 as [He1 [He2|He2]]; [exact He2|]. exfalso.
          apply (match_rows eps unit ds L tables Hin Hst Hfew i d p pa n v vi sc Hi Hp Hn Hsn Hv) in Hmeet. destruct Hmeet as (r2 & Hr2 & Q1 & Q2 & Q3).
          rewrite (He2 r2) in Q3; [discriminate| |congruence]. apply (pd_rows_table eps unit ds L tables Hin Hst t0 r0 r2 Ht0 Hr0t Hr2 He1). congruence. }
        destruct (ranked_row_picks r Hr Hm) as (i' & d' & g' & ga' & p' & pa' & n' & sc' & Hi' & Hg' & Hp' & E1 & E2 & E3 & E4 & E5 & Hie & l & li & Hli & Hgl & Hpl & Hla & Hn' & Hsn' & Hpick).
        assert (E0 : pd_id ds i' p' = pd_id ds i p) by congruence.
        destruct (pd_id_inj ds i' i d' d p' p pa' pa Hi' Hi Hp' Hp E0) as [-> ->].
        assert (d' = d) by congruence. subst d'. assert (pa' = pa) by congruence. subst pa'.
        assert (li = vi) by lia. subst li. assert (l = v) by (eapply index_of_inj; eauto). subst l.
        assert (n' = n).
        { rewrite Forall_forall in Hdis. specialize (Hdis d (nth_error_In _ _ Hi) pa (nth_error_In _ _ Hp)).
          rewrite NoDup_nth_error in Hdis. apply Hdis; [apply nth_error_Some; congruence|congruence]. }
        subst n'. assert (sc' = sc) by congruence. subst sc'.
        assert (Hl' : has_label v ga' = true) by (apply existsb_exists; exists v; split; [exact Hla|apply String.eqb_refl]).
        assert (g' = g).
        { apply (picks_unique d p g' g ga' ga v Hg' Hg Hl' Hl Hpick H5). }
        subst g'.
        assert (Hkey : gt_key r = (Z.of_nat i, gt_id ds i g, Z.of_nat vi)) by (unfold gt_key; congruence).
        assert (HrF : In r (filter datums R)) by (apply filter_In; split; [exact Hr|rewrite (Hsel r i d E1 Hi); exact Hsd]).
        destruct (best_match_exists (filter datums R) (gt_key r) t r HrF) as (b & Hb & Hbs).
        + apply gt_mask_spec. split; [reflexivity|congruence].
        + lia.
        + apply (ro_sorted _ mainok).
        + exists r. split; [exact HrF|]. split; [|congruence].
          rewrite !andb_true_iff. split; [split; [rewrite E2; unfold gt_id; lia|lia]|].
          unfold good_match. rewrite Hb. lia.
    Qed.
  Lemma pick_claims t r i g : In r RL ->
    claims_first eps t ds v (item_of ds r) i g <->
    (0 <= d_gt r)%Z /\ d_gl r = Z.of_nat vi /\ d_datum r = Z.of_nat i /\ d_gt r = gt_id ds i g /\ (t <= d_iou r)%Z /\
    (exists d, nth_error ds i = Some d /\ g < length (t_gts d)).
  Proof.
    intros Hr. destruct (rl_row eps unit ds L tables R Hin Hst HR Hfew sel datums Hsel v vi Hv r Hr) as (i0 & d & p & pa & n & Hi & Hs & Hp & Hn & Hsc & Htp & E1 & E2 & E3 & E4). rewrite E4.
    apply filter_In in Hr. destruct Hr as [Hr _]. apply filter_In in Hr. destruct Hr as [Hr _].
    assert (HM : label_match r = (d_gl r =? d_pl r)%Z) by (apply (R_match R (main_ranked_ok eps unit ds L tables R Hu Hin Hst HR Hfew) r Hr)).
    unfold claims_first. cbn [fst snd]. split.
    - intros (Ei & d' & ga & Hi' & Hg & Hl & H3 & H4 & H5). subst i. assert (d' = d) by congruence. subst d'.
      assert (Hmeet : meets eps d p v = true).
      { apply meets_spec. exists g, ga. split; [exact Hg|]. split; [|exact H3]. unfold has_label in Hl. apply existsb_exists in Hl.
        destruct Hl as (l' & Hl' & X). apply String.eqb_eq in X. subst l'. exact Hl'. }
      assert (Hm : label_match r = true).
      { destruct (ranked_In unit tables R r HR Hr) as (t0 & _ & Ht0 & _ & _ & Hr').
        destruct (rank_table_In unit t0 r Hr') as (r0 & Hr0 & E & Hr0t). apply rank_pairs_In in Hr0. destruct Hr0 as (_ & He0 & _).
        apply strip_fields in E. destruct E as (Ed & Eg & Egl & Ep & Epl & Esc & Eio).
        assert (X : label_match r0 = true); [|unfold label_match in *; rewrite Egl, Epl in X; exact X].
        destruct He0 as [He1 [He2|He2]]; [exact He2|]. exfalso.
        apply (match_rows eps unit ds L tables Hin Hst Hfew i0 d p pa n v vi (d_score r) Hi Hp Hn Hsc Hv) in Hmeet. destruct Hmeet as (r2 & Hr2 & Q1 & Q2 & Q3).
        rewrite (He2 r2) in Q3; [discriminate| |congruence]. apply (pd_rows_table eps unit ds L tables Hin Hst t0 r0 r2 Ht0 Hr0t Hr2 He1). congruence. }
      destruct (ranked_row_picks r Hr Hm) as (i' & d' & g' & ga' & p' & pa' & n' & sc' & Hi2 & Hg' & Hp' & G1 & G2 & G3 & G4 & G5 & Hie & l & li & Hli & Hgl & Hpl & Hla & Hn' & Hsn' & Hpick).
      assert (E0 : pd_id ds i' p' = pd_id ds i0 p) by congruence.
      destruct (pd_id_inj ds i' i0 d' d p' p pa' pa Hi2 Hi Hp' Hp E0) as [-> ->].
      assert (d' = d) by congruence. subst d'. assert (pa' = pa) by congruence. subst pa'.
      assert (li = vi) by lia. subst li. assert (l = v) by (eapply index_of_inj; eauto). subst l.
      assert (Hl' : has_label v ga' = true) by (apply existsb_exists; exists v; split; [exact Hla|apply String.eqb_refl]).
      assert (g' = g).
      { apply (picks_unique d p g' g ga' ga v Hg' Hg Hl' Hl Hpick H5). }
      subst g'. rewrite G2. split; [unfold gt_id; lia|]. split; [exact Hgl|]. split; [exact E1|]. split; [reflexivity|].
      split; [lia|]. exists d. split; [exact Hi|apply nth_error_Some; congruence].
    - intros (H0 & Hgl & Hd & Hgt & Ht & d' & Hi' & Hgl'). assert (i = i0) by lia. subst i0. assert (d' = d) by congruence. subst d'.
      split; [reflexivity|].
      assert (Hm : label_match r = true) by (rewrite HM; lia).
      destruct (ranked_row_picks r Hr Hm) as (i' & d' & g' & ga' & p' & pa' & n' & sc' & Hi2 & Hg' & Hp' & G1 & G2 & G3 & G4 & G5 & Hie & l & li & Hli & Hgl2 & Hpl & Hla & Hn' & Hsn' & Hpick).
      assert (E0 : pd_id ds i' p' = pd_id ds i p) by congruence.
      destruct (pd_id_inj ds i' i d' d p' p pa' pa Hi2 Hi Hp' Hp E0) as [-> ->].
      assert (d' = d) by congruence. subst d'.
      assert (li = vi) by lia. subst li. assert (l = v) by (eapply index_of_inj; eauto). subst l.
      assert (g' = g) by (unfold gt_id in *; lia). subst g'.
      exists d, ga'. split; [exact Hi|]. split; [exact Hg'|].
      split; [apply existsb_exists; exists v; split; [exact Hla|apply String.eqb_refl]|]. split; [exact Hie|]. split; [lia|].
      exact Hpick.
  Qed.

  Lemma pick_hits t : (0 < t)%Z -> ap_hits_first eps t ds v (map (item_of ds) RL) (map (tp_outer eps t) RL).
  Proof.
    intros Ht. split; [rewrite !map_length; reflexivity|]. intros P1 x P2 E.
    assert (Hs := E). apply (f_equal (fun l => nth_error l (length P1))) in Hs. rewrite nth_error_app2, Nat.sub_diag in Hs by lia.
    cbn [nth_error] in Hs. rewrite nth_error_map in Hs. destruct (nth_error RL (length P1)) as [r|] eqn:Er; [|discriminate].
    cbn in Hs. inversion Hs; subst x. clear Hs. rewrite nth_error_map, Er. cbn [option_map].
    assert (HrL := nth_error_In _ _ Er). destruct (nth_error_split _ _ Er) as (m1 & m2 & Em & Elen).
    assert (EP1 : P1 = map (item_of ds) m1).
    { assert (X : firstn (length P1) (map (item_of ds) RL) = P1) by (rewrite E, firstn_app, Nat.sub_diag, firstn_all; cbn; apply app_nil_r).
      rewrite <- X, firstn_map, Em, firstn_app, <- Elen, Nat.sub_diag, firstn_all. cbn. rewrite app_nil_r. reflexivity. }
    destruct (filter_app_split _ _ _ _ _ Em) as (l1 & l2 & EF & E1 & _ & Epl). apply Z.eqb_eq in Epl.
    assert (HrF : In r F) by (rewrite EF; apply in_app_iff; right; left; reflexivity).
    assert (HN : NoDup F) by (apply (R_NoDup F mainok)).
    assert (Hbm : best_match F (gt_key r) t = Some r <-> (d_gl r = d_pl r /\ (t <= d_iou r)%Z /\ forall y, In y l1 -> gt_mask (gt_key r) y = true -> (d_iou y < t)%Z)).
    { rewrite best_match_eq. split.
      - intros H. apply find_split in H. destruct H as (k1 & k2 & EK & Hm & Hno).
        assert (k1 = l1).
        { clear - EF EK HN. rewrite EF in EK, HN. clear EF. revert k1 EK HN. induction l1 as [|a l1 IH]; intros [|b k1] EK HN; cbn in *.
          - reflexivity.
          - inversion EK; subst. inversion HN as [|? ? X _]; subst. exfalso. apply X. apply in_app_iff. right. left. reflexivity.
          - inversion EK; subst. inversion HN as [|? ? X _]; subst. exfalso. apply X. apply in_app_iff. right. left. reflexivity.
          - inversion EK; subst. inversion HN; subst. f_equal. apply IH; auto. }
        subst k1. apply andb_true_iff in Hm. destruct Hm as [Hm1 Hm2]. apply gt_mask_spec in Hm1. split; [tauto|]. split; [lia|].
        intros y Hy Hyk. specialize (Hno y Hy). cbn in Hno. rewrite Hyk in Hno. cbn in Hno. lia.
      - intros (A & B & C). rewrite EF, find_app. rewrite find_none_iff.
        + cbn [find]. replace (gt_mask (gt_key r) r) with true by (symmetry; apply gt_mask_spec; auto).
          replace (t <=? d_iou r)%Z with true by lia. reflexivity.
        + intros y Hy. destruct (gt_mask (gt_key r) y) eqn:Ey; [|reflexivity]. specialize (C y Hy Ey). cbn. lia. }
    assert (Hout : tp_outer eps t r = true <-> (eps < d_score r)%Z /\ (0 <= d_gt r)%Z /\ best_match F (gt_key r) t = Some r).
    { unfold tp_outer. rewrite <- andb_assoc, andb_true_iff, (hit_iff F mainok t r Ht HrF). rewrite Z.ltb_lt. reflexivity. }
    destruct (rl_row eps unit ds L tables R Hin Hst HR Hfew sel datums Hsel v vi Hv r HrL) as (i & d & p & pa & n & Hi & Hsd & Hp & Hn & Hsc & Htp & D1 & D2 & D3 & D4).
    assert (Hin1 : forall y, In y m1 -> In y RL) by (intros y Hy; rewrite Em; apply in_app_iff; left; exact Hy).
    transitivity (tp_outer eps t r = true); [split; [intros X; inversion X; reflexivity|intros ->; reflexivity]|].
    rewrite Hout. rewrite Hbm. rewrite D4. cbn [snd]. split.
    - intros (A & B & C1 & C2 & C3). split; [exact A|].
      assert (Hm : label_match r = true) by (rewrite (R_match F mainok r HrF); lia).
      assert (HrR : In r R) by (apply filter_In in HrF; tauto).
      destruct (ranked_row_picks r HrR Hm) as (i' & d' & g' & ga' & p' & pa' & n' & sc' & Hi2 & Hg' & Hp' & G1 & G2 & G3 & _).
      assert (i' = i) by lia. subst i'. assert (d' = d) by congruence. subst d'.
      exists i, g'. rewrite <- D4. split.
      + apply pick_claims; [exact HrL|]. split; [exact B|]. split; [lia|]. split; [exact D1|]. split; [exact G2|]. split; [exact C2|].
        exists d. split; [exact Hi|apply nth_error_Some; congruence].
      + intros y Hy. rewrite EP1 in Hy. apply in_map_iff in Hy. destruct Hy as (r' & <- & Hr'). intros Hc.
        apply pick_claims in Hc; [|apply Hin1; exact Hr']. destruct Hc as (K1 & K2 & K3 & K4 & K5 & _).
        assert (Hr'1 : In r' l1) by (rewrite <- E1 in Hr'; apply filter_In in Hr'; tauto).
        assert (Hpl' : d_pl r' = Z.of_nat vi) by (specialize (Hin1 r' Hr'); apply filter_In in Hin1; destruct Hin1 as [_ X]; apply Z.eqb_eq in X; exact X).
        assert (X := C3 r' Hr'1). rewrite gt_mask_spec in X. assert (d_iou r' < t)%Z; [|lia]. apply X. unfold gt_key. split; [|congruence].
        f_equal; [f_equal; congruence|lia].
    - intros (A & i1 & g1 & Hc & Hno). rewrite <- D4 in Hc. apply pick_claims in Hc; [|exact HrL].
      destruct Hc as (K1 & K2 & K3 & K4 & K5 & K6). split; [exact A|]. split; [exact K1|]. split; [congruence|]. split; [exact K5|].
      intros y Hy Hm. apply gt_mask_spec in Hm. destruct Hm as [Hk Hgl]. unfold gt_key in Hk. injection Hk as Y1 Y2 Y3.
      destruct (Z.lt_ge_cases (d_iou y) t) as [X|X]; [exact X|]. exfalso.
      assert (Hym : In y m1) by (rewrite <- E1; apply filter_In; split; [exact Hy|lia]).
      apply (Hno (item_of ds y)); [rewrite EP1; apply in_map; exact Hym|]. apply pick_claims; [apply Hin1; exact Hym|].
      split; [lia|]. split; [congruence|]. split; [congruence|]. split; [congruence|]. split; [lia|exact K6].
  Qed.

  End Selected.
End Pick.

Section PickEnd.
  Variables (eps unit : Z) (ds : list detection).
  Hypothesis Hin : det_input unit ds.
  Variables (sel : detection -> bool) (datums : drow -> bool).
  Hypothesis Hsel : det_selects ds datums sel.
  Variable e : deval.
  Hypothesis Hu : (0 <= unit)%Z.
  Hypothesis He : det_evaluator eps unit ds e.
  Hypothesis Hfew : few_det_labels ds.

  Lemma end_order L : det_stored eps ds L (de_detailed e) -> forall i d, nth_error ds i = Some d ->
    filter (of_datum (Z.of_nat i)) (concat (de_detailed e)) = dsort (flat_map (item_row d i (gts_before ds i) (pds_before ds i) L) (items eps d)).
  Proof.
    intros Hst i d Hi. destruct (stored_image eps unit ds Hin e He) as (L' & Hst' & _ & H).
    assert (L' = L) as -> by (destruct Hst as (l1 & E1 & <- & _), Hst' as (l2 & E2 & <- & _); congruence). apply H. exact Hi.
  Qed.

  Lemma pick_end_tp v vi : label_no e v vi -> forall t s, (0 < t)%Z -> Forall distinct_pd_labels ds ->
    rep_tp eps e datums t s (Z.of_nat vi) = gts_where sel (fun d g => picked eps t s d v g) ds v.
  Proof.
    intros Hv t s Ht Hd. unfold rep_tp. rewrite (counts_flat eps unit ds Hin sel datums Hsel e Hu He Hfew) by exact Ht.
    destruct (end_facts eps unit ds Hin e He) as (L & Hst & HR & _ & B & Hf & _). apply B in Hv.
    apply (pick_tp eps unit ds L _ _ Hu Hin Hst HR (Hf Hfew) (end_order L Hst) sel (sel_rows ds sel) (sel_rows_selects ds sel) v vi Hv t s Ht Hd).
  Qed.

  Lemma pick_pr_curve v vi : label_no e v vi -> Forall distinct_pd_labels ds ->
    exists P, ap_ranking eps sel ds v P /\
      forall t, (0 < t)%Z -> exists hits, ap_hits_first eps t ds v P hits /\
        (rep_ap eps e datums t (Z.of_nat vi) == ap_spec (gts_with sel ds v) hits)%Q /\
        length (rep_pr_curve eps e datums t (Z.of_nat vi)) = 101 /\
        forall k q, nth_error (rep_pr_curve eps e datums t (Z.of_nat vi)) k = Some q -> (q == interpolated (gts_with sel ds v) hits k)%Q.
  Proof.
    intros Hv Hd. destruct (end_facts eps unit ds Hin e He) as (L & Hst & HR & _ & B & Hf & _). assert (Hv' := Hv). apply B in Hv'.
    specialize (Hf Hfew). assert (Ho := end_order L Hst). set (R := concat (de_ranked e)) in *. set (ids := sel_rows ds sel). assert (Hids := sel_rows_selects ds sel). fold ids in Hids.
    exists (map (item_of ds) (filter (fun r => (d_pl r =? Z.of_nat vi)%Z) (filter ids R))).
    split; [apply (rl_ranking eps unit ds L _ R Hu Hin Hst HR Hf Hd sel ids Hids v vi Hv')|].
    intros t Ht. exists (map (tp_outer eps t) (filter (fun r => (d_pl r =? Z.of_nat vi)%Z) (filter ids R))).
    split; [apply (pick_hits eps unit ds L _ R Hu Hin Hst HR Hf Ho sel ids Hids v vi Hv' t Ht)|].
    assert (Hb := hits_bound eps unit ds L _ R Hu Hin Hst HR Hf sel ids Hids v vi Hv' t Ht).
    assert (Eg := end_gts eps unit ds Hin sel datums Hsel e He v vi Hv). rewrite <- Eg in Hb |- *.
    assert (Ec : forall b, rep_curve eps e datums t (Z.of_nat vi) b
      = fst (upd_curve (rep_gts e datums) (fst (running eps t run0 (filter ids R))) curve0 (Z.of_nat vi) b)).
    { intros b. unfold rep_curve. rewrite (curve_flat eps unit ds Hin sel datums Hsel e Hu He Hfew). reflexivity. }
    split.
    { unfold rep_ap. rewrite (average_precision_ext _ _ Ec). apply ap_is_spec. exact Hb. }
    split; [apply pr_curve_length|]. intros k q Hq. destruct (pr_curve_nth eps e datums t (Z.of_nat vi) k q Hq) as (Hk & A).
    apply same_upper_bounds. intros x. rewrite A, (interpolated_le eps t (rep_gts e datums) (Z.of_nat vi) _ Hb).
    split; intros [X1 X2]; (split; [exact X1|]); intros b Hb'; [rewrite <- Ec|rewrite Ec]; apply X2; exact Hb'.
  Qed.

End PickEnd.
