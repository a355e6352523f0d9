(* Object detection: the rows of an image and the matching computed from them depend
   on the image alone, up to the numbers of its annotations. *)
From Verif Require Import Prelude Counting CacheModel CacheSpec CacheProofs SortProofs FlowModel FlowProofs ClsModel ClsSpec ClsLabelProofs
  DetModel DetSpec DetMatchProofs DetRankProofs DetCountProofs DetLoaderProofs DetStoreProofs DetFlowModel DetLocalProofs DetMain DetOrderProofs
  DetConfProofs DetMatchingProofs DetConfOrder DetExModel DetExampleProofs DetReportModel DetEnd DetMore.
From Coq Require Import String Lia.
Local Open Scope nat_scope.
Local Open Scope list_scope.
Local Notation length := List.length (only parsing).
Local Notation concat := List.concat (only parsing).

(* ------------------------------------------------------------------ *)
(** * Rows written for an image *)

Section Writes.
  Variable eps : Z.

  Lemma add_detection_items l d l' : gt_labels_ok d -> add_detection eps l d = Some l' ->
    extends (l_labels l) (l_labels l') /\
    forall Lfin, extends (l_labels l') Lfin ->
      concat (l_writes l') = concat (l_writes l) ++ flat_map (item_row d (l_datums l) (l_gts l) (l_pds l) Lfin) (items eps d).
  Proof.
    intros H E. set (L' := first_appearance (l_labels l) (flat_map item_labels (items eps d))).
    assert (P := proc_fold d (l_datums l) (l_gts l) (l_pds l) (items eps d) (l_labels l) []).
    fold L' in P. cbn [app] in P.
    unfold add_detection in E. rewrite emit_datum_proc in E by exact H. rewrite (P L' (extends_refl L')) in E.
    injection E as <-. cbn [l_labels l_writes]. split; [apply first_appearance_extends|].
    intros Lfin He. assert (P1 := P L' (extends_refl L')). rewrite (P Lfin He) in P1. injection P1 as P1. rewrite P1.
    rewrite concat_app. f_equal. destruct (flat_map (item_row d (l_datums l) (l_gts l) (l_pds l) L') (items eps d)); [reflexivity|]. cbn. rewrite app_nil_r. reflexivity.
  Qed.

  Lemma flat_rows_datum d i gb pb L its r : In r (flat_map (item_row d i gb pb L) its) -> d_datum r = Z.of_nat i.
  Proof. intros H. apply in_flat_map in H. destruct H as (x & _ & H). apply item_row_datum in H. exact H. Qed.
  Lemma filter_all {A} (f : A -> bool) l : (forall x, In x l -> f x = true) -> filter f l = l.
  Proof. intros H. induction l as [|a l IH]; [reflexivity|]. cbn. rewrite H by (left; reflexivity). f_equal. apply IH. intros x Hx. apply H. right. exact Hx. Qed.
  Lemma filter_none {A} (f : A -> bool) l : (forall x, In x l -> f x = false) -> filter f l = [].
  Proof. intros H. induction l as [|a l IH]; [reflexivity|]. cbn. rewrite H by (left; reflexivity). apply IH. intros x Hx. apply H. right. exact Hx. Qed.

  Lemma add_detections_snoc ds d l0 : add_detections eps l0 (ds ++ [d]) =
    match add_detections eps l0 ds with Some l => add_detection eps l d | None => None end.
  Proof.
    revert l0. induction ds as [|a t IH]; intros l0; cbn; [destruct (add_detection eps l0 d); reflexivity|].
    destruct (add_detection eps l0 a); [apply IH|reflexivity].
  Qed.

  Lemma written_image ds : Forall gt_labels_ok ds -> forall l, add_detections eps dloader_init ds = Some l ->
    forall i d Lfin, nth_error ds i = Some d -> extends (l_labels l) Lfin ->
      filter (of_datum (Z.of_nat i)) (concat (l_writes l))
      = flat_map (item_row d i (gts_before ds i) (pds_before ds i) Lfin) (items eps d).
  Proof.
    induction ds as [|d0 ds IH] using rev_ind; intros Hok l El i d Lfin Hi He; [destruct i; discriminate|].
    apply Forall_app in Hok. destruct Hok as [Hok Hd0]. inversion Hd0 as [|? ? Hd0' _]; subst.
    rewrite add_detections_snoc in El. destruct (add_detections eps dloader_init ds) as [l0|] eqn:E0; [|discriminate].
    destruct (add_detections_loaded eps ds Hok) as (l0' & E0' & Hl). assert (l0' = l0) by congruence. subst l0'.
    destruct (add_detection_items l0 d0 l Hd0' El) as [Hx Hw].
    rewrite (Hw Lfin He), filter_app. assert (Hn := ld_datums _ _ _ Hl).
    assert (Hgb : forall i, i <= length ds -> gts_before (ds ++ [d0]) i = gts_before ds i) by (intros; apply before_snoc; assumption).
    assert (Hpb : forall i, i <= length ds -> pds_before (ds ++ [d0]) i = pds_before ds i) by (intros; apply before_snoc; assumption).
    destruct (Nat.lt_ge_cases i (length ds)) as [Li|Li].
    - rewrite nth_error_app1 in Hi by lia. rewrite Hgb, Hpb by lia.
      rewrite (IH Hok l0 eq_refl i d Lfin Hi (extends_trans _ _ _ Hx He)).
      rewrite (filter_none (of_datum (Z.of_nat i)) (flat_map _ (items eps d0))); [apply app_nil_r|].
      intros r Hr. apply flat_rows_datum in Hr. unfold of_datum. rewrite Hr, Hn. apply Z.eqb_neq. lia.
    - assert (i < length (ds ++ [d0])) by (apply nth_error_Some; congruence). rewrite app_length in H. cbn in H.
      assert (i = length ds) by lia. subst i. rewrite nth_error_app2, Nat.sub_diag in Hi by lia. cbn in Hi. injection Hi as <-.
      rewrite filter_none.
      + cbn [app]. rewrite filter_all.
        * rewrite Hgb, Hpb by lia. rewrite Hn, (ld_gts _ _ _ Hl), (ld_pds _ _ _ Hl). reflexivity.
        * intros r Hr. apply flat_rows_datum in Hr. unfold of_datum. rewrite Hr, Hn. apply Z.eqb_refl.
      + intros r Hr. apply (ld_rows _ _ _ Hl _ (extends_refl _)) in Hr. destruct Hr as (j & d' & Hj & (x & _ & Hxr)).
        apply item_row_datum in Hxr. unfold of_datum. rewrite Hxr. apply Z.eqb_neq.
        assert (j < length ds) by (apply nth_error_Some; congruence). lia.
  Qed.
End Writes.

(* ------------------------------------------------------------------ *)
(** * Sorting and choosing commute with renumbering *)

Lemma insert_Forall2 {A B} (R : A -> B -> Prop) le1 le2 :
  (forall a b a' b', R a b -> R a' b' -> le1 a a' = le2 b b') ->
  forall l1 l2 x y, R x y -> Forall2 R l1 l2 -> Forall2 R (insert le1 x l1) (insert le2 y l2).
Proof.
  intros H l1 l2 x y Hxy HF. induction HF as [|a b l1 l2 Hab HF IH]; cbn; [constructor; auto|].
  rewrite (H x y a b Hxy Hab). destruct (le2 y b); constructor; auto.
Qed.
Lemma isort_Forall2 {A B} (R : A -> B -> Prop) le1 le2 :
  (forall a b a' b', R a b -> R a' b' -> le1 a a' = le2 b b') ->
  forall l1 l2, Forall2 R l1 l2 -> Forall2 R (isort le1 l1) (isort le2 l2).
Proof.
  intros H l1 l2 HF. induction HF as [|a b l1 l2 Hab HF IH]; cbn; [constructor|]. apply insert_Forall2; assumption.
Qed.

Definition moved (k : nat) (z : Z) : Z := if (z <? 0)%Z then z else (Z.of_nat k + z)%Z.
Lemma moved_neg k z : (moved k z <? 0)%Z = (z <? 0)%Z.
Proof. unfold moved. destruct (z <? 0)%Z eqn:E; [exact E|]. apply Z.ltb_ge in E. apply Z.ltb_ge. lia. Qed.
Lemma moved_inj k x y : moved k x = moved k y -> x = y.
Proof.
  intros H. assert (A := moved_neg k x). assert (B := moved_neg k y). rewrite H, B in A. unfold moved in H. rewrite A in H.
  destruct (x <? 0)%Z; lia.
Qed.
Lemma zmem_moved k x l : zmem (moved k x) (map (moved k) l) = zmem x l.
Proof.
  unfold zmem. induction l as [|a l IH]; [reflexivity|]. cbn. rewrite IH. f_equal.
  destruct (Z.eqb_spec x a) as [->|N]; [apply Z.eqb_refl|]. apply Z.eqb_neq. intros E. apply N, (moved_inj k). exact E.
Qed.
Lemma greedy_moved a b l : forall ug up,
  greedy (map (moved a) ug) (map (moved b) up) (map (fun x => (moved a (fst x), moved b (snd x))) l)
  = map (fun x => (moved a (fst x), moved b (snd x))) (greedy ug up l).
Proof.
  induction l as [|(g, p) l IH]; intros ug up; [reflexivity|]. cbn [map fst snd]. rewrite !greedy_cons, !moved_neg, !zmem_moved.
  destruct ((g <? 0)%Z || (p <? 0)%Z || zmem g ug || zmem p up); [apply IH|].
  cbn [map fst snd]. f_equal. apply (IH (g :: ug) (p :: up)).
Qed.

(* ------------------------------------------------------------------ *)
(** * The matching of an image *)

(* rows of the image with its own numbering *)
Definition image_rows (eps : Z) (d : detection) : list drow := dsort (flat_map (item_row d 0 0 0 []) (items eps d)).
Definition image_matching (eps : Z) (d : detection) (p g : nat) : bool :=
  (p <? length (t_pds d)) && (g <? length (t_gts d))
  && zzmem (Z.of_nat g, Z.of_nat p) (greedy [] [] (map pair_ids (image_rows eps d))).

Definition renumbered (a b : nat) (r r' : drow) : Prop :=
  d_score r = d_score r' /\ d_iou r = d_iou r' /\ d_gt r' = moved a (d_gt r) /\ d_pd r' = moved b (d_pd r).
Lemma item_rows_renumbered d i a b L its :
  Forall2 (renumbered a b) (flat_map (item_row d 0 0 0 []) its) (flat_map (item_row d i a b L) its).
Proof.
  induction its as [|x its IH]; [constructor|]. cbn [flat_map]. apply Forall2_app; [|exact IH].
  assert (M : forall k z, Z.of_nat (k + z) = moved k (Z.of_nat (0 + z))).
  { intros k z. unfold moved. replace (Z.of_nat (0 + z) <? 0)%Z with false by (symmetry; apply Z.ltb_ge; lia). lia. }
  destruct x; cbn [item_row]; repeat constructor; cbn [d_gt d_pd]; try apply M; reflexivity.
Qed.
Lemma renumbered_pairs a b l l' : Forall2 (renumbered a b) l l' ->
  map pair_ids l' = map (fun x => (moved a (fst x), moved b (snd x))) (map pair_ids l).
Proof.
  intros H. induction H as [|r r' l l' (_ & _ & E1 & E2) H IH]; [reflexivity|]. cbn [map]. rewrite IH. unfold pair_ids at 1 3. cbn [fst snd].
  rewrite E1, E2. reflexivity.
Qed.
Lemma row_leb_renumbered a b r s r' s' : renumbered a b r s -> renumbered a b r' s' -> row_leb det_sorting r r' = row_leb det_sorting s s'.
Proof.
  intros (E1 & E2 & _) (F1 & F2 & _). unfold row_leb, det_sorting. cbn. rewrite E1, E2, F1, F2. reflexivity.
Qed.

Section Image.
  Variables (eps unit : Z) (ds : list detection).
  Hypothesis Hin : det_input unit ds.

  Lemma input_labels_ok : Forall gt_labels_ok ds.
  Proof. revert Hin. unfold det_input. apply Forall_impl. intros d (A & B & _). apply det_ok_labels; assumption. Qed.

  Lemma stored_image e : det_evaluator eps unit ds e ->
    exists L, det_stored eps ds L (de_detailed e) /\ (forall v vi, label_no e v vi <-> index_of v L = Some vi) /\
      forall i d, nth_error ds i = Some d ->
        filter (of_datum (Z.of_nat i)) (concat (de_detailed e))
        = dsort (flat_map (item_row d i (gts_before ds i) (pds_before ds i) L) (items eps d)).
  Proof.
    intros He. destruct (end_groups eps unit ds Hin e He) as (l & G & El & Hl & Ha & Ec & Ed & _ & Hst & _).
    destruct (end_facts eps unit ds Hin e He) as (L & Hst' & _ & _ & B & _).
    assert (L = l_labels l) as -> by (destruct Hst' as (l' & E & <- & _); congruence).
    exists (l_labels l). split; [exact Hst|]. split; [exact B|]. intros i d Hi. rewrite Ed, datum_rows by exact Ha. rewrite Ec. f_equal.
    apply (written_image eps ds input_labels_ok l El i d (l_labels l) Hi (extends_refl _)).
  Qed.

  Lemma image_code_matching e sel datums : det_evaluator eps unit ds e -> selects_ids ds datums sel ->
    forall i d, nth_error ds i = Some d -> sel d = true ->
    forall p g, code_matching ds (de_detailed e) datums i p g = image_matching eps d p g.
  Proof.
    intros He Hs i d Hi Hd p g.
    destruct (end_facts eps unit ds Hin e He) as (L & Hst & _). destruct (stored_image e He) as (L' & _ & _ & Hrows).
    apply eq_true_iff_eq. rewrite (code_matching_local eps unit ds L _ Hin Hst datums i d p g Hi).
    unfold image_matching. rewrite !andb_true_iff, !Nat.ltb_lt, zzmem_In.
    rewrite (filter_all datums).
    - rewrite (Hrows i d Hi). set (a := gts_before ds i). set (b := pds_before ds i).
      assert (HF : Forall2 (renumbered a b) (image_rows eps d) (dsort (flat_map (item_row d i a b L') (items eps d)))).
      { apply (isort_Forall2 (renumbered a b)); [apply row_leb_renumbered|apply item_rows_renumbered]. }
      rewrite (renumbered_pairs a b _ _ HF), (greedy_moved a b _ [] []), in_map_iff.
      assert (M : forall k z, Z.of_nat (k + z) = moved k (Z.of_nat z)).
      { intros k z. unfold moved. replace (Z.of_nat z <? 0)%Z with false by (symmetry; apply Z.ltb_ge; lia). lia. }
      unfold gt_id, pd_id. fold a b. rewrite !M. split.
      + intros (Hp & Hg & (x, y) & E & Hx). injection E as E1 E2. apply moved_inj in E1, E2. subst. auto.
      + intros ((Hp & Hg) & Hx). split; [exact Hp|]. split; [exact Hg|]. eexists. split; [|exact Hx]. reflexivity.
    - intros r Hr. apply filter_In in Hr. destruct Hr as [_ Hr]. unfold of_datum in Hr. apply Z.eqb_eq in Hr.
      rewrite (Hs r i d Hr Hi). exact Hd.
  Qed.
End Image.


(* ------------------------------------------------------------------ *)
(** * Equal matchings *)

Lemma best_first_ext eps d M M' : (forall p g, M p g = M' p g) -> best_first eps d M -> best_first eps d M'.
Proof.
  intros E [A B C D]. split.
  - intros p g H. apply A. rewrite E. exact H.
  - intros p g g' H H'. apply (B p); rewrite E; assumption.
  - intros p p' g H H'. apply (C p p' g); rewrite E; assumption.
  - intros p pa g H1 H2 H3 H4. destruct (D p pa g H1 H2 H3 H4) as [H|(p' & pa' & g' & H & X)]; [left; rewrite <- E; exact H|].
    right. exists p', pa', g'. rewrite <- E. auto.
Qed.
Lemma lists_once_ext {X U} (P P' : X -> Prop) (name : X -> U) l : (forall x, P x <-> P' x) -> lists_once P name l -> lists_once P' name l.
Proof. intros E (T & A & B & C). exists T. split; [exact A|]. split; [|exact C]. intros x. rewrite B. apply E. Qed.
Lemma det_example_ext eps t s d M M' ex : (forall p g, M p g = M' p g) -> det_example_ok eps t s d M ex -> det_example_ok eps t s d M' ex.
Proof.
  intros E (A & B & C). split; [|split].
  - revert A. apply lists_once_ext. intros (g, p). unfold agrees. cbn.
    split; intros (ga & pa & k & l & sc & H); exists ga, pa, k, l, sc; [rewrite <- E|rewrite E]; exact H.
  - revert B. apply lists_once_ext. intros (p, k). unfold wrong_pd. cbn. rewrite (pd_covered_ext eps t s d M M' p E).
    split; intros (pa & l & sc & H1 & H2 & H3 & H4); exists pa, l, sc; (split; [exact H1|]); (split; [exact H2|]); (split; [exact H3|]);
    (destruct H4 as [(g & ga & H4)|H4]; [left; exists g, ga|right; exact H4]); [rewrite <- E|rewrite E]; exact H4.
  - revert C. apply lists_once_ext. intros g. unfold missed_gt. rewrite (gt_covered_ext eps t s d M M' g E).
    split; intros (ga & H1 & H4); exists ga; (split; [exact H1|]);
    (destruct H4 as [(p & pa & k & l & sc & H4)|H4]; [left; exists p, pa, k, l, sc|right; exact H4]); [rewrite <- E|rewrite E]; exact H4.
Qed.

(* the matching used for an image is a function of the image *)
Theorem image_end_matching eps unit ds : det_input unit ds -> forall sel datums, det_selects ds datums sel ->
  forall e, det_evaluator eps unit ds e -> few_det_labels ds -> few_annotations ds -> Forall distinct_pd_labels ds ->
  (forall d, In d ds -> sel d = true -> best_first eps d (image_matching eps d)) /\
  (forall t s gl gi pl pi, label_no e gl gi -> label_no e pl pi ->
    dm (rep_matrix eps e datums t s) (Z.of_nat gi) (Z.of_nat pi)
    = list_sum_nat (map (fun d => if sel d then count_pairs gl pl d (fun g p sc => image_matching eps d p g && reaches eps t s d p g sc) else 0) ds)) /\
  (forall t s gl gi, label_no e gl gi ->
    dm_gt (rep_matrix eps e datums t s) (Z.of_nat gi)
    = list_sum_nat (map (fun d => if sel d then count_gts gl d (fun g => negb (gt_covered eps t s d (image_matching eps d) g)) else 0) ds)) /\
  (forall t s pl pi, label_no e pl pi ->
    dm_pd (rep_matrix eps e datums t s) (Z.of_nat pi)
    = list_sum_nat (map (fun d => if sel d then count_pds pl d (fun p sc => (eps <? sc)%Z && (s <=? sc)%Z && negb (pd_covered eps t s d (image_matching eps d) p)) else 0) ds)) /\
  (forall t s ious scores ex u, In (u, t, s, ex) (det_eval_examples eps ious scores (map (filter datums) (de_detailed e))) ->
    exists d, In d ds /\ sel d = true /\ u = Some (t_uid d) /\ In t ious /\ In s scores /\ det_example_ok eps t s d (image_matching eps d) ex) /\
  (forall t s ious scores d, In d ds -> sel d = true -> has_rows d -> In t ious -> In s scores ->
    exists ex, In (Some (t_uid d), t, s, ex) (det_eval_examples eps ious scores (map (filter datums) (de_detailed e))) /\
      det_example_ok eps t s d (image_matching eps d) ex).
Proof.
  intros Hin sel datums Hsel e He Hfew Hann Hdis.
  destruct (end_facts eps unit ds Hin e He) as (L & Hst & HR & HS & B & Hf & Hlen & _). specialize (Hf Hfew).
  assert (Hids := sel_rows_selects ds sel). set (ids := sel_rows ds sel) in *.
  rewrite (filter_tables_ext datums ids _ (end_detailed_ext eps unit ds Hin sel datums Hsel e He)).
  assert (HM := image_code_matching eps unit ds Hin e sel ids He Hids).
  assert (Hsum : forall f : detection -> nat, over_datums sel ds (fun _ d => f d) = list_sum_nat (map (fun d => if sel d then f d else 0) ds)).
  { intros f. unfold over_datums. apply (numbered_sum (fun d => if sel d then f d else 0)). }
  split.
  { intros d Hd Hs. apply In_nth_error in Hd. destruct Hd as (i & Hi). apply (best_first_ext _ _ _ _ (HM i d Hi Hs)). eapply code_best_first; eassumption. }
  split.
  { intros t s gl gi pl pi Hg Hp. apply B in Hg. apply B in Hp. rewrite (matrix_ids eps unit ds Hin sel datums Hsel e t s He). unfold rep_matrix.
    rewrite <- Hsum. etransitivity; [eapply cells_spec; eassumption|]. apply over_datums_ext. intros i d Hi Hs. apply count_pairs_ext. intros g p sc.
    fold ids. rewrite (HM i d Hi Hs). reflexivity. }
  split.
  { intros t s gl gi Hg. apply B in Hg. rewrite (matrix_ids eps unit ds Hin sel datums Hsel e t s He). unfold rep_matrix.
    rewrite <- Hsum. etransitivity; [eapply alone_gts_spec; eassumption|]. apply over_datums_ext. intros i d Hi Hs. apply count_gts_ext. intros g.
    fold ids. rewrite (gt_covered_ext eps t s d _ _ g (HM i d Hi Hs)). reflexivity. }
  split.
  { intros t s pl pi Hp. apply B in Hp. rewrite (matrix_ids eps unit ds Hin sel datums Hsel e t s He). unfold rep_matrix.
    rewrite <- Hsum. etransitivity; [eapply alone_pds_spec; eassumption|]. apply over_datums_ext. intros i d Hi Hs. apply count_pds_ext. intros p sc.
    fold ids. rewrite (pd_covered_ext eps t s d _ _ p (HM i d Hi Hs)). reflexivity. }
  split.
  - intros t s ious scores ex u H.
    assert (X : exists i d, nth_error ds i = Some d /\ sel d = true /\ u = Some (t_uid d) /\ In t ious /\ In s scores /\
      det_example_ok eps t s d (code_matching ds (de_detailed e) ids i) ex) by (eapply eval_examples_sound; eassumption).
    destruct X as (i & d & Hi & Hs & Eu & Ht & Hsc & X). exists d. split; [apply (nth_error_In _ _ Hi)|]. split; [exact Hs|].
    split; [exact Eu|]. split; [exact Ht|]. split; [exact Hsc|]. apply (det_example_ext _ _ _ _ _ _ _ (HM i d Hi Hs) X).
  - intros t s ious scores d Hd Hs Hr Ht Hsc. apply In_nth_error in Hd. destruct Hd as (i & Hi).
    assert (X : exists ex, In (Some (t_uid d), t, s, ex) (det_eval_examples eps ious scores (map (filter ids) (de_detailed e))) /\
      det_example_ok eps t s d (code_matching ds (de_detailed e) ids i) ex) by (eapply eval_examples_complete; eassumption).
    destruct X as (ex & X1 & X2). exists ex. split; [exact X1|]. apply (det_example_ext _ _ _ _ _ _ _ (HM i d Hi Hs) X2).
Qed.
