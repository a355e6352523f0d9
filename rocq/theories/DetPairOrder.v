(* The pairs of an image are stored by falling score, falling IoU, ground truth and
   prediction, in every evaluator that is built or filtered. *)
From Verif Require Import Prelude Counting CacheModel CacheSpec CacheProofs SortProofs ClsModel FlowModel ClsLabelProofs DetModel DetExModel DetSpec DetFlowModel
  DetFilterModel DetOrderProofs DetLocalProofs DetLoaderProofs DetReportModel DetEnd DetMatchProofs DetFilterSpec DetFilterProofs DetImage DetConfOrder DetTurnSpec DetPicture DetPictureLists.
From Coq Require Import Lia.
From Coq Require String.
Local Open Scope nat_scope.
Local Open Scope list_scope.

(* ------------------------------------------------------------------ stable sorting *)
Lemma isort_lex {A} (leb : A -> A -> bool) (R : A -> A -> Prop) :
  (forall x y, leb x y = true \/ leb y x = true) ->
  (forall x y z, leb x y = true -> leb y z = true -> leb x z = true) ->
  forall l, StronglySorted R l -> StronglySorted (fun a b => leb a b = true /\ (leb b a = true -> R a b)) (isort leb l).
Proof.
  intros tot tr l. induction l as [|x l IH]; intros H; [constructor|]. inversion H as [|? ? H1 H2]; subst.
  specialize (IH H1). change (isort leb (x :: l)) with (insert leb x (isort leb l)).
  assert (F : forall y, In y (isort leb l) -> R x y).
  { intros y Hy. rewrite Forall_forall in H2. apply H2. apply (Permutation_in y (Permutation_sym (isort_perm leb l))). exact Hy. }
  revert F IH. generalize (isort leb l). clear l H H1 H2. induction l as [|y l IHl]; intros F S; cbn; [repeat constructor|].
  inversion S as [|? ? S1 S2]; subst. destruct (leb x y) eqn:E.
  - constructor; [exact S|]. constructor; [split; [exact E|intros _; apply F; left; reflexivity]|].
    rewrite Forall_forall in S2 |- *. intros z Hz. split; [apply (tr x y z E); apply (S2 z Hz)|intros _; apply F; right; exact Hz].
  - constructor; [apply IHl; [intros z Hz; apply F; right; exact Hz|exact S1]|].
    rewrite Forall_forall in S2 |- *. intros z Hz. apply insert_In in Hz. destruct Hz as [->|Hz]; [|apply S2; exact Hz].
    split; [destruct (tot x y); congruence|]. intros C. congruence.
Qed.

Lemma det_leb_iff a b : row_leb det_sorting a b = true <->
  (d_score b < d_score a \/ (d_score b = d_score a /\ d_iou b <= d_iou a))%Z.
Proof.
  cbn. destruct (Z.eqb_spec (d_score a) (d_score b)), (Z.eqb_spec (d_iou a) (d_iou b)),
    (Z.ltb_spec (d_score b) (d_score a)), (Z.ltb_spec (d_iou b) (d_iou a)); split; try lia; try discriminate.
Qed.
Definition ids_le (a b : drow) : Prop := (d_gt a < d_gt b \/ (d_gt a = d_gt b /\ d_pd a <= d_pd b))%Z.
Lemma row_le_dsort l : StronglySorted ids_le l -> StronglySorted row_le (dsort l).
Proof.
  intros H. assert (X := isort_lex (row_leb det_sorting) ids_le (row_leb_total det_sorting) (row_leb_trans det_sorting) l H).
  eapply StronglySorted_impl; [|exact X]. intros a b (A & B). unfold ids_le in B. apply row_le_iff. apply det_leb_iff in A.
  destruct (row_leb det_sorting b a) eqn:E; [specialize (B eq_refl); apply det_leb_iff in E; lia|].
  assert (~ (d_score a < d_score b \/ (d_score a = d_score b /\ d_iou a <= d_iou b))%Z) by (rewrite <- det_leb_iff; congruence). lia.
Qed.
Lemma dsort_row_le l : StronglySorted row_le l -> dsort l = l.
Proof.
  intros H. unfold table_sort_by. apply isort_id; [apply row_leb_total|apply row_leb_trans|].
  eapply StronglySorted_impl; [|exact H]. intros a b A. apply row_le_iff in A. apply det_leb_iff. lia.
Qed.

Lemma pairs_dsort i l : StronglySorted row_le (pairs_of i l) -> pairs_of i (dsort l) = pairs_of i l.
Proof. intros H. unfold pairs_of in *. rewrite table_sort_filter. apply dsort_row_le. exact H. Qed.
Lemma pairs_app i a b : pairs_of i (a ++ b) = pairs_of i a ++ pairs_of i b.
Proof. apply filter_app. Qed.

Definition pairs_ordered (T : list drow) : Prop := forall i, StronglySorted row_le (pairs_of i T).

(* ------------------------------------------------------------------ filtering *)
Lemma pair_filter_row vg vp r : is_pair (det_filter_row vg vp r) = vg && vp && is_pair r.
Proof. destruct vg, vp; unfold is_pair; cbn; try reflexivity; rewrite ?andb_false_r; reflexivity. Qed.
Lemma filter_row_id r : det_filter_row true true r = r.
Proof. destruct r; reflexivity. Qed.
Lemma pairs_filter_rows (vg vp : drow -> bool) i l :
  pairs_of i (filter (fun r => negb ((d_gt r <? 0)%Z && (d_pd r <? 0)%Z)) (map (fun r => det_filter_row (vg r) (vp r) r) (filter (fun r => vg r || vp r) l)))
  = filter (fun r => vg r && vp r) (pairs_of i l).
Proof.
  unfold pairs_of. induction l as [|r l IH]; [reflexivity|]. cbn [filter].
  destruct (vg r) eqn:A, (vp r) eqn:B; cbn [orb]; [| | |].
  - cbn [map filter]. rewrite A, B, filter_row_id.
    destruct (is_pair r) eqn:C; cbn [andb].
    + assert (D : ((d_gt r <? 0)%Z && (d_pd r <? 0)%Z) = false) by (unfold is_pair in C; lia). rewrite D. cbn [negb filter].
      rewrite C. cbn [andb]. destruct (d_datum r =? Z.of_nat i)%Z; cbn [filter]; rewrite ?A, ?B; cbn [andb]; rewrite IH; reflexivity.
    + destruct (negb _); cbn [filter]; rewrite ?C; cbn [andb]; exact IH.
  - cbn [map filter]. rewrite A, B. assert (P := pair_filter_row true false r). cbn [andb] in P.
    transitivity (filter (fun r => vg r && vp r) (filter (fun r => is_pair r && (d_datum r =? Z.of_nat i)%Z) l)).
    + destruct (negb _); cbn [filter]; rewrite ?P; cbn [andb]; exact IH.
    + destruct (is_pair r && _); [|reflexivity]. cbn [filter]. rewrite A, B. reflexivity.
  - cbn [map filter]. rewrite A, B. assert (P := pair_filter_row false true r). cbn [andb] in P.
    transitivity (filter (fun r => vg r && vp r) (filter (fun r => is_pair r && (d_datum r =? Z.of_nat i)%Z) l)).
    + destruct (negb _); cbn [filter]; rewrite ?P; cbn [andb]; exact IH.
    + destruct (is_pair r && _); [|reflexivity]. cbn [filter]. rewrite A, B. reflexivity.
  - rewrite IH. destruct (is_pair r && _); [|reflexivity]. cbn [filter]. rewrite A, B. reflexivity.
Qed.

Lemma sorted_of_concat {A} (R : A -> A -> Prop) (f : list A -> list A) (ts : list (list A)) : f [] = [] -> (forall a b, f (a ++ b) = f a ++ f b) ->
  StronglySorted R (f (concat ts)) -> forall t, In t ts -> StronglySorted R (f t).
Proof.
  intros F0 Fa. induction ts as [|x ts IH]; intros H t [].
  - subst. cbn in H. rewrite Fa in H. apply StronglySorted_app in H. apply H.
  - cbn in H. rewrite Fa in H. apply StronglySorted_app in H. apply IH; [apply H|assumption].
Qed.
Lemma sub_concat (h : list drow -> list drow) (ts : list (list drow)) i :
  (forall t, In t ts -> exists k, pairs_of i (h t) = filter k (pairs_of i t)) ->
  StronglySorted row_le (pairs_of i (concat ts)) -> StronglySorted row_le (pairs_of i (concat (map h ts))).
Proof.
  induction ts as [|t ts IH]; intros Hh H; [exact H|]. cbn [concat map] in *. rewrite pairs_app in *.
  apply StronglySorted_app in H. destruct H as (H1 & H2 & H3).
  apply StronglySorted_app. destruct (Hh t (or_introl eq_refl)) as (k & E). rewrite E.
  assert (S2 : StronglySorted row_le (pairs_of i (concat (map h ts)))) by (apply IH; [intros; apply Hh; right; assumption|exact H2]).
  split; [apply StronglySorted_filter; exact H1|]. split; [exact S2|].
  intros a b Ha Hb. apply H3; [apply filter_In in Ha; apply Ha|].
  clear - Hh Hb. assert (Hh' : forall t, In t ts -> exists k, pairs_of i (h t) = filter k (pairs_of i t)) by (intros; apply Hh; right; assumption).
  clear Hh t. induction ts as [|t ts IH]; [exact Hb|]. cbn [concat map] in *. rewrite pairs_app in *. apply in_app_or in Hb. apply in_or_app.
  destruct Hb as [Hb|Hb]; [|right; apply IH; [exact Hb|intros; apply Hh'; right; assumption]].
  left. destruct (Hh' t (or_introl eq_refl)) as (k & E). rewrite E in Hb. apply filter_In in Hb. apply Hb.
Qed.
Lemma filter_pairs_ordered datums gts pds ts : pairs_ordered (concat ts) -> pairs_ordered (concat (det_filter_tables datums gts pds ts)).
Proof.
  intros H i. unfold det_filter_tables. apply sub_concat; [|apply H]. intros t Ht. unfold det_filter_table.
  rewrite pairs_filter_rows. unfold pairs_of. rewrite (filter_filter_comm _ datums). rewrite filter_filter.
  eexists. reflexivity.
Qed.
Lemma dsort_pairs_ordered T : pairs_ordered T -> pairs_ordered (dsort T).
Proof. intros H i. rewrite pairs_dsort; apply H. Qed.
Lemma groups_pairs_ordered gs : pairs_ordered (concat (concat gs)) -> pairs_ordered (concat (map dsort (map (@concat drow) gs))).
Proof.
  intros H i. rewrite map_map. assert (E : pairs_of i (concat (map (fun g => dsort (concat g)) gs)) = pairs_of i (concat (concat gs))); [|rewrite E; apply H].
  specialize (H i). induction gs as [|g gs IH]; [reflexivity|]. cbn [concat map] in *. rewrite concat_app, !pairs_app in *.
  apply StronglySorted_app in H. destruct H as (H1 & H2 & _). rewrite pairs_dsort by exact H1. rewrite IH by exact H2. reflexivity.
Qed.

(* ------------------------------------------------------------------ the rows written for an image *)
Lemma filter_flat_map {A B} (f : B -> bool) (g : A -> list B) l : filter f (flat_map g l) = flat_map (fun x => filter f (g x)) l.
Proof. induction l as [|x l IH]; [reflexivity|]. cbn. rewrite filter_app, IH. reflexivity. Qed.
Lemma same_sorted {A} (R : A -> A -> Prop) l : (forall a b, In a l -> In b l -> R a b) -> StronglySorted R l.
Proof.
  induction l as [|x l IH]; intros H; constructor; [apply IH; intros; apply H; right; assumption|].
  apply Forall_forall. intros y Hy. apply H; [left; reflexivity|right; exact Hy].
Qed.
Section Items.
  Variables (eps : Z) (d : detection) (i gb pb : nat) (L : list String.string).
  Definition pair_rows (its : list item) : list drow := filter is_pair (flat_map (item_row d i gb pb L) its).
  Lemma pair_rows_app a b : pair_rows (a ++ b) = pair_rows a ++ pair_rows b.
  Proof. unfold pair_rows. rewrite flat_map_app, filter_app. reflexivity. Qed.
  Lemma pair_rows_flat {A} (f : A -> list item) l : pair_rows (flat_map f l) = flat_map (fun x => pair_rows (f x)) l.
  Proof. induction l as [|x l IH]; [reflexivity|]. cbn [flat_map]. rewrite pair_rows_app, IH. reflexivity. Qed.
  Lemma pair_rows_pds p pa : pair_rows (pd_items p pa) = [].
  Proof. unfold pd_items. induction (combine _ _) as [|x l IH]; [reflexivity|]. unfold pair_rows in *. cbn. exact IH. Qed.
  Lemma pair_rows_cons x its : (match x with IPair _ _ _ _ _ _ _ => False | _ => True end) -> pair_rows (x :: its) = pair_rows its.
  Proof.
    intros H. unfold pair_rows. destruct x; try destruct H; cbn; try reflexivity.
    unfold is_pair at 1. cbn. rewrite andb_false_r. reflexivity.
  Qed.
  Lemma pair_rows_pairs g ga p pa r : In r (pair_rows (pair_items g ga p pa)) -> d_gt r = Z.of_nat (gb + g) /\ d_pd r = Z.of_nat (pb + p).
  Proof.
    unfold pair_rows. intros H. apply filter_In in H. destruct H as (H & _). apply in_flat_map in H. destruct H as (x & Hx & Hr).
    unfold pair_items in Hx. apply in_flat_map in Hx. destruct Hx as (gl & _ & Hx). apply in_map_iff in Hx. destruct Hx as (ls & <- & _).
    cbn in Hr. destruct Hr as [<-|[]]. split; reflexivity.
  Qed.
  Definition gt_pd_rows (g : nat) (ga : annotation) (ip : nat * annotation) : list drow :=
    if (eps <=? t_iou d (fst ip) g)%Z then pair_rows (pair_items g ga (fst ip) (snd ip)) else [].
  Lemma pair_rows_gt_pds g ga : pair_rows (gt_pd_items eps d g ga) = flat_map (gt_pd_rows g ga) (enum (t_pds d)).
  Proof.
    unfold gt_pd_items. rewrite pair_rows_flat. apply flat_map_ext. intros ip. rewrite pair_rows_app. unfold gt_pd_rows.
    destruct (pd_alone eps d (fst ip)); rewrite ?pair_rows_pds; destruct (eps <=? _)%Z; reflexivity.
  Qed.
  Lemma gt_pd_rows_In g ga ip r : In r (gt_pd_rows g ga ip) -> d_gt r = Z.of_nat (gb + g) /\ d_pd r = Z.of_nat (pb + fst ip).
  Proof. unfold gt_pd_rows. destruct (eps <=? _)%Z; [apply pair_rows_pairs|intros []]. Qed.
  Lemma pair_rows_gt ig : pair_rows (gt_items eps d ig) =
    match a_labels (snd ig) with [] => [] | _ => flat_map (gt_pd_rows (fst ig) (snd ig)) (enum (t_pds d)) end.
  Proof.
    unfold gt_items. destruct (a_labels (snd ig)); [reflexivity|]. destruct (gt_alone eps d (fst ig)); rewrite pair_rows_cons by exact I; apply pair_rows_gt_pds.
  Qed.
  Lemma pair_rows_gt_In ig r : In r (pair_rows (gt_items eps d ig)) -> d_gt r = Z.of_nat (gb + fst ig).
  Proof.
    rewrite pair_rows_gt. destruct (a_labels (snd ig)); [intros []|]. intros H. apply in_flat_map in H. destruct H as (ip & _ & H). apply gt_pd_rows_In in H. apply H.
  Qed.
  Lemma pair_rows_sorted : StronglySorted ids_le (pair_rows (items eps d)).
  Proof.
    unfold items. destruct (t_gts d) as [|g0 gs] eqn:E.
    - rewrite pair_rows_flat. rewrite (flat_map_ext _ (fun _ => [])) by (intros; apply pair_rows_pds).
      induction (enum (t_pds d)); [constructor|assumption].
    - rewrite <- E. rewrite pair_rows_flat. apply (sorted_concat_map _ earlier); [apply numbered_sorted| |].
      + intros ig _. rewrite pair_rows_gt. destruct (a_labels (snd ig)); [constructor|].
        apply (sorted_concat_map _ earlier); [apply numbered_sorted| |].
        * intros ip _. apply same_sorted. intros a b Ha Hb. apply gt_pd_rows_In in Ha, Hb. unfold ids_le. lia.
        * intros a b _ _ Hab x y Hx Hy. apply gt_pd_rows_In in Hx, Hy. unfold ids_le, earlier in *. lia.
      + intros a b _ _ Hab x y Hx Hy. apply pair_rows_gt_In in Hx, Hy. unfold ids_le, earlier in *. lia.
  Qed.
End Items.

(* ------------------------------------------------------------------ evaluators *)
Section Evaluators.
  Variables (eps unit : Z) (ds : list detection) (L : list String.string).
  Hypothesis Hin : det_input unit ds.
  Lemma built_pairs_ordered e : det_evaluator eps unit ds e -> (forall v vi, label_no e v vi <-> index_of v L = Some vi) -> pairs_ordered (concat (de_detailed e)).
  Proof.
    intros He HL i. destruct (nth_error ds i) as [d|] eqn:D.
    - destruct (stored_image eps unit ds Hin e He) as (L' & _ & _ & X). specialize (X i d D).
      assert (E : pairs_of i (concat (de_detailed e)) = filter is_pair (filter (of_datum (Z.of_nat i)) (concat (de_detailed e)))).
      { unfold pairs_of. rewrite filter_filter. apply filter_ext. intros r. unfold of_datum. apply andb_comm. }
      rewrite E, X, table_sort_filter. apply row_le_dsort. apply pair_rows_sorted.
    - assert (S : shows eps unit ds L full_view e) by (constructor; assumption).
      assert (W := g_world _ _ _ _ _ _ (shows_good eps unit ds L full_view e Hin S)).
      replace (pairs_of i (concat (de_detailed e))) with (@nil drow); [constructor|]. symmetry. apply filter_none. intros r Hr.
      apply andb_false_iff. right. apply Z.eqb_neq. intros C.
      destruct (w_rows _ _ _ _ _ W r Hr) as [(j & d & g & p & v & s & J & A & _)|[(j & d & g & J & A & _)|(j & d & p & v & s & J & A & _)]];
        [apply cgt_datum in A|apply cgt_datum in A|apply cpd_datum in A]; assert (j = i) by lia; congruence.
  Qed.
  Theorem shows_pairs_ordered w e : shows eps unit ds L w e -> pairs_ordered (concat (de_detailed e)).
  Proof.
    induction 1 as [e He HL|w e bs rb datums gts pds sel sg sp e' H IH Hsel Hg Hp He|w e bs rpf rb datums gts pds sel sg sp e' Hrb H IH Hsel Hg Hp He].
    - apply built_pairs_ordered; assumption.
    - assert (X := det_filter_mem_spec unit bs rb e datums gts pds). cbn zeta in X.
      assert (O := filter_pairs_ordered datums gts pds (de_detailed e) IH).
      destruct (concat (det_filter_tables datums gts pds (de_detailed e))) as [|r rs]; [congruence|].
      destruct X as (e2 & E2 & D & _). assert (e2 = e') by congruence. subst e2. rewrite D. cbn [concat]. rewrite app_nil_r. apply dsort_pairs_ordered. exact O.
    - assert (X := det_filter_file_spec unit bs rpf rb e datums gts pds Hrb). cbn zeta in X.
      assert (O := filter_pairs_ordered datums gts pds (de_detailed e) IH).
      destruct (concat (det_filter_tables datums gts pds (de_detailed e))) as [|r rs] eqn:Q; [congruence|].
      destruct X as (e2 & gs & E2 & G & D & _). assert (e2 = e') by congruence. subst e2. rewrite D. apply groups_pairs_ordered. rewrite G, Q. exact O.
  Qed.
End Evaluators.
