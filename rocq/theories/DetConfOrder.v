(* The detection confusion matrix does not depend on how the rows were grouped into
   tables; the matching is determined by the input when there are no ties. *)
From Verif Require Import Prelude Counting CacheModel CacheSpec CacheProofs SortProofs FlowModel FlowProofs Pipeline ClsModel ClsLabelProofs DetModel DetSpec DetMatchProofs DetRankProofs
  DetCountProofs DetLoaderProofs DetStoreProofs DetFlowModel DetFlowProofs DetLocalProofs DetMain DetOrderProofs DetConfProofs DetMatchingProofs.
From Coq Require Import Lia.
From Coq Require String.
Local Open Scope nat_scope.
Local Open Scope list_scope.

(* the greedy choice looks only at rows sharing an id *)
Lemma greedy_local (P : drow -> bool) (L0 : list drow) z :
  (forall a b, In a L0 -> In b L0 -> valid_pair (pair_ids a) -> valid_pair (pair_ids b) -> conflict (pair_ids a) (pair_ids b) -> P a = P b) ->
  (exists r, In r L0 /\ P r = true /\ pair_ids r = z /\ valid_pair z) ->
  forall l ug up ug' up', incl l L0 ->
  (forall a, In a L0 -> valid_pair (pair_ids a) -> P a = true -> zmem (d_gt a) ug = zmem (d_gt a) ug' /\ zmem (d_pd a) up = zmem (d_pd a) up') ->
  (In z (greedy ug up (map pair_ids l)) <-> In z (greedy ug' up' (map pair_ids (filter P l)))).
Proof.
  intros HC (r & Hr & Pr & Ez & Vz). induction l as [|x l IH]; intros ug up ug' up' Hl HU; [cbn; tauto|].
  assert (Hx : In x L0) by (apply Hl; left; reflexivity).
  assert (Hl' : incl l L0) by (intros y Hy; apply Hl; right; exact Hy).
  cbn [map filter]. assert (E : pair_ids x = (d_gt x, d_pd x)) by reflexivity. rewrite E at 1. rewrite greedy_cons.
  destruct (((d_gt x <? 0) || (d_pd x <? 0))%Z) eqn:Ev.
  - cbn [orb]. destruct (P x); [|apply IH; assumption]. cbn [map]. rewrite E, greedy_cons, Ev. cbn [orb]. apply IH; assumption.
  - assert (Vx : valid_pair (pair_ids x)).
    { apply orb_false_iff in Ev. rewrite !Z.ltb_ge in Ev. unfold valid_pair, pair_ids. cbn. lia. }
    cbn [orb]. destruct (P x) eqn:Px.
    + cbn [map]. rewrite E, greedy_cons, Ev. cbn [orb]. destruct (HU x Hx Vx Px) as [<- <-].
      destruct (zmem (d_gt x) ug || zmem (d_pd x) up); [apply IH; assumption|].
      cbn [In]. rewrite (IH _ _ (d_gt x :: ug') (d_pd x :: up')); [reflexivity|exact Hl'|].
      intros a Ha Va Pa. destruct (HU a Ha Va Pa) as [U1 U2]. unfold zmem in *. cbn [existsb]. rewrite U1, U2. auto.
    + assert (Far : forall a, In a L0 -> valid_pair (pair_ids a) -> P a = true -> ~ conflict (pair_ids a) (pair_ids x)).
      { intros a Ha Va Pa C. assert (P a = P x) by (apply HC; assumption). congruence. }
      destruct (zmem (d_gt x) ug || zmem (d_pd x) up); [apply IH; assumption|].
      cbn [In]. rewrite (IH _ _ ug' up').
      * split; [intros [A|A]; [|exact A]|auto]. exfalso. apply (Far r Hr); [congruence|exact Pr|]. rewrite Ez, <- A. left. reflexivity.
      * exact Hl'.
      * intros a Ha Va Pa. destruct (HU a Ha Va Pa) as [U1 U2]. specialize (Far a Ha Va Pa). unfold conflict, pair_ids in Far. cbn in Far.
        unfold zmem in *. cbn [existsb]. rewrite U1, U2.
        destruct (Z.eqb_spec (d_gt a) (d_gt x)); [tauto|]. destruct (Z.eqb_spec (d_pd a) (d_pd x)); [tauto|]. auto.
Qed.

Lemma filter_filter_comm {A} (P Q : A -> bool) l : filter P (filter Q l) = filter Q (filter P l).
Proof.
  induction l as [|x t IH]; [reflexivity|]. cbn. destruct (P x) eqn:Ep, (Q x) eqn:Eq; cbn; rewrite ?Ep, ?Eq, IH; reflexivity.
Qed.

Section Local.
  Variables (eps unit : Z) (ds : list detection) (L : list String.string) (tables : list (list drow)).
  Hypothesis Hin : det_input unit ds.
  Hypothesis Hst : det_stored eps ds L tables.
  Variables (datums : drow -> bool).
  Notation rows_iff := (stored_rows eps unit ds L tables Hin Hst).

  (* the matching of a datum, from the rows of that datum alone *)
  Lemma code_matching_local i d p g : nth_error ds i = Some d ->
    code_matching ds tables datums i p g = true <->
    p < length (t_pds d) /\ g < length (t_gts d) /\
    In (gt_id ds i g, pd_id ds i p) (greedy [] [] (map pair_ids (filter datums (filter (of_datum (Z.of_nat i)) (concat tables))))).
  Proof.
    intros Hi. rewrite (code_matching_iff ds tables datums i d p g Hi).
    assert (Loc : forall tb, In tb tables ->
      filter (of_datum (Z.of_nat i)) (concat tables) = filter (of_datum (Z.of_nat i)) tb -> p < length (t_pds d) -> g < length (t_gts d) ->
      (exists r, In r (filter datums tb) /\ of_datum (Z.of_nat i) r = true /\ pair_ids r = (gt_id ds i g, pd_id ds i p)) ->
      (In (gt_id ds i g, pd_id ds i p) (greedy [] [] (map pair_ids (filter datums tb))) <->
       In (gt_id ds i g, pd_id ds i p) (greedy [] [] (map pair_ids (filter datums (filter (of_datum (Z.of_nat i)) (concat tables))))))).
    { intros tb Htb E Hp Hg (r & R1 & R2 & R3).
      rewrite E, filter_filter_comm.
      apply (greedy_local (of_datum (Z.of_nat i)) (filter datums tb)).
      - intros a b Ha Hb [Va1 Va2] [Vb1 Vb2] C. apply filter_In in Ha, Hb. destruct Ha as [Ha _], Hb as [Hb _].
        assert (Ha' : In a (concat tables)) by (apply in_concat; eauto). assert (Hb' : In b (concat tables)) by (apply in_concat; eauto).
        unfold pair_ids in *. cbn in *. unfold of_datum. f_equal. destruct C as [C|C]; cbn in C.
        + apply (stored_gts_in_one eps unit ds L tables Hin Hst a b Ha' Hb' Va1 C).
        + apply (stored_pds_in_one eps unit ds L tables Hin Hst a b Ha' Hb' Va2 C).
      - exists r. split; [exact R1|]. split; [exact R2|]. split; [exact R3|]. split; cbn; [apply gt_id_nonneg|apply pd_id_nonneg].
      - apply incl_refl.
      - auto. }
    assert (OfI : forall r, In r (concat tables) -> d_gt r = gt_id ds i g -> g < length (t_gts d) -> d_datum r = Z.of_nat i).
    { intros r Hr E Hg. apply rows_iff in Hr. destruct (described_gt _ _ _ _ Hr) as (i' & d' & g' & ga & j & gl' & gi' & A1 & A2 & A3 & A4 & A5 & A6 & A7 & _).
      { rewrite E. apply gt_id_nonneg. }
      destruct (nth_error (t_gts d) g) as [ga0|] eqn:Eg; [|apply nth_error_None in Eg; lia].
      rewrite E in A6. destruct (gt_id_inj ds i i' d d' g g' ga0 ga Hi A1 Eg A2 A6) as [<- _]. exact A5. }
    assert (Tab : forall tb r, In tb tables -> In r tb -> d_datum r = Z.of_nat i -> filter (of_datum (Z.of_nat i)) (concat tables) = filter (of_datum (Z.of_nat i)) tb).
    { intros tb r Htb Hr Ed. destruct (aligned_datum (Z.of_nat i) tables (stored_aligned eps ds L tables Hst)) as [E|(n & t & Hn & E & O)].
      - exfalso. assert (X : In r (filter (of_datum (Z.of_nat i)) (concat tables))).
        { apply filter_In. split; [apply in_concat; eauto|]. unfold of_datum. apply Z.eqb_eq. exact Ed. }
        rewrite E in X. destruct X.
      - apply In_nth_error in Htb. destruct Htb as (m & Hm). destruct (Nat.eq_dec m n) as [->|N].
        + assert (tb = t) by congruence. subst. exact E.
        + exfalso. assert (X : In r (filter (of_datum (Z.of_nat i)) tb)).
          { apply filter_In. split; [exact Hr|]. unfold of_datum. apply Z.eqb_eq. exact Ed. }
          rewrite (O m tb Hm N) in X. destruct X. }
    split.
    - intros (Hp & Hg & tb & Htb & Hc). split; [exact Hp|]. split; [exact Hg|].
      assert (Hc' := Hc). apply greedy_In in Hc'. destruct Hc' as [Hc' _]. apply in_map_iff in Hc'. destruct Hc' as (r & E & Hr).
      assert (Hr' := Hr). apply filter_In in Hr'. destruct Hr' as [Hr1 Hr2].
      assert (Ed : d_datum r = Z.of_nat i).
      { apply OfI; [apply in_concat; eauto| |exact Hg]. unfold pair_ids in E. congruence. }
      apply (Loc tb Htb); auto; [apply (Tab tb r); assumption|]. exists r. split; [exact Hr|]. split; [|exact E].
      unfold of_datum. apply Z.eqb_eq. exact Ed.
    - intros (Hp & Hg & Hc). split; [exact Hp|]. split; [exact Hg|].
      assert (Hc' := Hc). apply greedy_In in Hc'. destruct Hc' as [Hc' _]. apply in_map_iff in Hc'. destruct Hc' as (r & E & Hr).
      apply filter_In in Hr. destruct Hr as [Hr Hrd]. apply filter_In in Hr. destruct Hr as [Hr Hri].
      apply in_concat in Hr. destruct Hr as (tb & Htb & Hr). exists tb. split; [exact Htb|].
      assert (Ed : d_datum r = Z.of_nat i) by (unfold of_datum in Hri; apply Z.eqb_eq; exact Hri).
      apply (Loc tb Htb); auto; [apply (Tab tb r); assumption|]. exists r. split; [apply filter_In; auto|]. auto.
  Qed.
End Local.

Lemma over_datums_ext sel ds f g : (forall i d, nth_error ds i = Some d -> sel d = true -> f i d = g i d) ->
  over_datums sel ds f = over_datums sel ds g.
Proof.
  intros H. unfold over_datums. apply list_sum_nat_ext. intros [i d] Hx. apply numbered_In in Hx. cbn [fst snd].
  destruct (sel d) eqn:Es; [apply H; assumption|reflexivity].
Qed.
Lemma count_pairs_ext gl pl d ok ok' : (forall g p sc, ok g p sc = ok' g p sc) -> count_pairs gl pl d ok = count_pairs gl pl d ok'.
Proof.
  intros H. unfold count_pairs. apply list_sum_nat_ext. intros [g ga] _. cbn [fst snd]. destruct (has_label gl ga); [|reflexivity].
  apply list_sum_nat_ext. intros [p pa] _. cbn [fst snd]. apply countb_ext. intros x _. rewrite H. reflexivity.
Qed.
Lemma count_gts_ext gl d ok ok' : (forall g, ok g = ok' g) -> count_gts gl d ok = count_gts gl d ok'.
Proof. intros H. unfold count_gts. apply countb_ext. intros x _. rewrite H. reflexivity. Qed.
Lemma count_pds_ext pl d ok ok' : (forall p sc, ok p sc = ok' p sc) -> count_pds pl d ok = count_pds pl d ok'.
Proof.
  intros H. unfold count_pds. apply list_sum_nat_ext. intros [p pa] _. cbn [fst snd]. apply countb_ext. intros x _. rewrite H. reflexivity.
Qed.
Lemma existsb_ext' {A} (f g : A -> bool) l : (forall x, f x = g x) -> existsb f l = existsb g l.
Proof. intros H. induction l as [|x t IH]; cbn; [reflexivity|]. rewrite H, IH. reflexivity. Qed.
Lemma gt_covered_ext eps t s d M M' g : (forall p g, M p g = M' p g) -> gt_covered eps t s d M g = gt_covered eps t s d M' g.
Proof. intros H. unfold gt_covered. apply existsb_ext'. intros x. rewrite H. reflexivity. Qed.
Lemma pd_covered_ext eps t s d M M' p : (forall p g, M p g = M' p g) -> pd_covered eps t s d M p = pd_covered eps t s d M' p.
Proof. intros H. unfold pd_covered. destruct (nth_error (t_pds d) p); [|reflexivity]. apply existsb_ext'. intros x. rewrite H. reflexivity. Qed.

(* SPEC: same matrix on every label *)
Definition same_matrix (L : list String.string) (m m' : dconf) : Prop :=
  forall gl gi pl pi, index_of gl L = Some gi -> index_of pl L = Some pi ->
    dm m (Z.of_nat gi) (Z.of_nat pi) = dm m' (Z.of_nat gi) (Z.of_nat pi) /\
    dm_gt m (Z.of_nat gi) = dm_gt m' (Z.of_nat gi) /\ dm_pd m (Z.of_nat pi) = dm_pd m' (Z.of_nat pi).

Lemma matrix_by_datum eps unit ds L T1 T2 sel datums t s :
  det_input unit ds -> det_stored eps ds L T1 -> det_stored eps ds L T2 -> few_annotations ds ->
  Forall distinct_pd_labels ds -> selects_ids ds datums sel ->
  (forall d, filter (of_datum d) (concat T1) = filter (of_datum d) (concat T2)) ->
  same_matrix L (eval_confusion eps t s datums T1) (eval_confusion eps t s datums T2).
Proof.
  intros Hin H1 H2 Hf Hd Hs HE gl gi pl pi Hgi Hpi.
  assert (M : forall i d, nth_error ds i = Some d -> forall p g, code_matching ds T1 datums i p g = code_matching ds T2 datums i p g).
  { intros i d Hi p g. apply eq_true_iff_eq.
    rewrite (code_matching_local eps unit ds L T1 Hin H1 datums i d p g Hi), (code_matching_local eps unit ds L T2 Hin H2 datums i d p g Hi), HE. reflexivity. }
  rewrite (cells_spec eps unit ds L T1 Hin H1 Hf Hd sel datums Hs t s gl gi pl pi Hgi Hpi),
          (cells_spec eps unit ds L T2 Hin H2 Hf Hd sel datums Hs t s gl gi pl pi Hgi Hpi),
          (alone_gts_spec eps unit ds L T1 Hin H1 Hf Hd sel datums Hs t s gl gi Hgi),
          (alone_gts_spec eps unit ds L T2 Hin H2 Hf Hd sel datums Hs t s gl gi Hgi),
          (alone_pds_spec eps unit ds L T1 Hin H1 Hf Hd sel datums Hs t s pl pi Hpi),
          (alone_pds_spec eps unit ds L T2 Hin H2 Hf Hd sel datums Hs t s pl pi Hpi).
  split; [|split]; apply over_datums_ext; intros i d Hi Hsd.
  - apply count_pairs_ext. intros g p sc. rewrite (M i d Hi). reflexivity.
  - apply count_gts_ext. intros g. f_equal. apply gt_covered_ext. apply (M i d Hi).
  - apply count_pds_ext. intros p sc. f_equal. f_equal. apply pd_covered_ext. apply (M i d Hi).
Qed.

Lemma dsort_sorted t : StronglySorted ranked_before (dsort t).
Proof.
  assert (S := proj1 (isort_stable (row_leb det_sorting) (row_leb_total det_sorting) (row_leb_trans det_sorting) t)).
  eapply StronglySorted_impl; [|exact S]. intros x y H. apply det_leb_before. exact H.
Qed.

Lemma map_dsort_sorted G : sorted_tables (map dsort G).
Proof. apply Forall_forall. intros t H. apply in_map_iff in H. destruct H as (g & <- & _). apply dsort_sorted. Qed.

Lemma datum_rows G d : aligned d_datum G ->
  filter (of_datum d) (concat (map dsort G)) = dsort (filter (of_datum d) (concat G)).
Proof.
  intros Ha. rewrite <- (sorted_tables_datum G d Ha).
  destruct (aligned_datum d (map dsort G) (aligned_map_sort G Ha)) as [E|(i & t & Hi & E & _)].
  - rewrite E. reflexivity.
  - rewrite E. rewrite nth_error_map in Hi. destruct (nth_error G i) as [g|]; [|discriminate]. cbn in Hi. injection Hi as <-.
    rewrite <- table_sort_filter. rewrite dsort_idem. reflexivity.
Qed.

Lemma countb_lt {A} (f g : A -> bool) l x : (forall y, In y l -> f y = true -> g y = true) ->
  In x l -> f x = false -> g x = true -> countb f l < countb g l.
Proof.
  intros H Hx Fx Gx. apply in_split in Hx. destruct Hx as (l1 & l2 & ->).
  assert (countb f l1 <= countb g l1) by (apply countb_mono; intros y Hy; apply H; apply in_or_app; auto).
  assert (countb f l2 <= countb g l2) by (apply countb_mono; intros y Hy; apply H; apply in_or_app; right; right; auto).
  rewrite !countb_app. unfold countb in *. cbn [filter]. rewrite Fx, Gx. cbn [length]. lia.
Qed.

(* without ties there is only one best-first matching *)
Section Unique.
  Variables (eps : Z) (d : detection).
  Hypothesis Hn : no_pair_ties eps d.

  Definition ptop (p : nat) : Z := match nth_error (t_pds d) p with Some a => top_score a | None => 0%Z end.
  Definition strictly (y x : nat * nat) : bool :=
    (ptop (fst x) <? ptop (fst y))%Z || ((ptop (fst x) =? ptop (fst y))%Z && (t_iou d (fst x) (snd x) <? t_iou d (fst y) (snd y))%Z).
  Definition grid : list (nat * nat) := list_prod (seq 0 (length (t_pds d))) (seq 0 (length (t_gts d))).
  Definition depth (x : nat * nat) : nat := countb (fun y => strictly y x) grid.

  Lemma strictly_irrefl x : strictly x x = false.
  Proof. unfold strictly. rewrite !Z.ltb_irrefl, andb_false_r. reflexivity. Qed.
  Lemma strictly_trans x y z : strictly x y = true -> strictly y z = true -> strictly x z = true.
  Proof.
    unfold strictly. rewrite !orb_true_iff, !andb_true_iff, !Z.ltb_lt, !Z.eqb_eq. intros H1 H2. lia.
  Qed.
  Lemma depth_lt y x : In y grid -> strictly y x = true -> depth y < depth x.
  Proof.
    intros Hy H. unfold depth. apply (countb_lt _ _ grid y); auto using strictly_irrefl.
    intros z _ Hz. apply (strictly_trans z y x); assumption.
  Qed.

  Lemma in_grid M p g : best_first eps d M -> M p g = true -> In (p, g) grid.
  Proof.
    intros B H. destruct (bf_pairs _ _ _ B p g H) as (pa & Hp & _ & Hg & _). apply in_prod_iff.
    rewrite !in_seq. split; [split; [lia|]|lia]. apply nth_error_Some. congruence.
  Qed.

  Lemma bf_iff M p g pa : best_first eps d M -> nth_error (t_pds d) p = Some pa -> a_scores pa <> [] ->
    g < length (t_gts d) -> (eps <= t_iou d p g)%Z ->
    (M p g = true <-> forall p' g', strictly (p', g') (p, g) = true -> p' = p \/ g' = g -> M p' g' = false).
  Proof.
    intros B Hp Hs Hg Ho. split.
    - intros HM p' g' St C. destruct (M p' g') eqn:E; [|reflexivity]. exfalso.
      assert ((p', g') = (p, g)); [|rewrite H, strictly_irrefl in St; discriminate]. destruct C as [->| ->].
      + rewrite (bf_one_gt _ _ _ B p g' g E HM). reflexivity.
      + rewrite (bf_one_pd _ _ _ B p' p g E HM). reflexivity.
    - intros H. destruct (bf_taken _ _ _ B p pa g Hp Hs Hg Ho) as [HM|(p' & pa' & g' & HM & Hp' & C & N)]; [exact HM|].
      destruct (bf_pairs _ _ _ B p' g' HM) as (pa1 & Hp1 & _ & Hg' & Ho'). assert (pa1 = pa') by congruence. subst pa1.
      destruct (strictly (p', g') (p, g)) eqn:St; [rewrite (H p' g' St C) in HM; discriminate|].
      assert (X : top_score pa' = top_score pa /\ t_iou d p' g' = t_iou d p g).
      { unfold no_later in N. unfold strictly, ptop in St. cbn [fst snd] in St. rewrite Hp, Hp' in St.
        rewrite orb_false_iff, andb_false_iff, !Z.ltb_ge, Z.eqb_neq in St. lia. }
      destruct X as [X1 X2]. destruct (Hn p' pa' g' p pa g Hp' Hp Hg' Hg Ho' Ho C X1 X2) as [-> ->]. exact HM.
  Qed.

  Theorem best_first_unique M M' : best_first eps d M -> best_first eps d M' -> forall p g, M p g = M' p g.
  Proof.
    intros B B'.
    assert (Ind : forall n p g, depth (p, g) < n -> M p g = M' p g).
    { induction n as [|n IH]; intros p g Hd; [lia|].
      assert (One : forall N, best_first eps d N -> N p g = true -> exists pa, nth_error (t_pds d) p = Some pa /\ a_scores pa <> [] /\
          g < length (t_gts d) /\ (eps <= t_iou d p g)%Z) by (intros N BN HN; apply (bf_pairs _ _ _ BN p g HN)).
      assert (Both : forall pa, nth_error (t_pds d) p = Some pa -> a_scores pa <> [] ->
          g < length (t_gts d) -> (eps <= t_iou d p g)%Z -> (M p g = true <-> M' p g = true)).
      { intros pa Hp Hs Hg Ho. rewrite (bf_iff M p g pa B Hp Hs Hg Ho), (bf_iff M' p g pa B' Hp Hs Hg Ho).
        split; intros H p' g' St C.
        - destruct (M' p' g') eqn:E; [|reflexivity].
          assert (X := depth_lt (p', g') (p, g) (in_grid M' p' g' B' E) St).
          rewrite <- (IH p' g') in E by lia. rewrite (H p' g' St C) in E. discriminate.
        - destruct (M p' g') eqn:E; [|reflexivity].
          assert (X := depth_lt (p', g') (p, g) (in_grid M p' g' B E) St).
          rewrite (IH p' g') in E by lia. rewrite (H p' g' St C) in E. discriminate. }
      apply eq_true_iff_eq. split; intros H.
      - destruct (One M B H) as (pa & A1 & A2 & A3 & A4). apply (Both pa A1 A2 A3 A4). exact H.
      - destruct (One M' B' H) as (pa & A1 & A2 & A3 & A4). apply (Both pa A1 A2 A3 A4). exact H. }
    intros p g. apply (Ind (S (depth (p, g)))). lia.
  Qed.
End Unique.

(* the evaluators of any two builders agree on the confusion matrix *)
Section Storage.
  Variables (eps unit : Z) (ds : list detection).
  Hypothesis Hin : det_input unit ds.
  Hypothesis Hfew : few_annotations ds.
  Hypothesis Hdis : Forall distinct_pd_labels ds.
  Variables (sel : detection -> bool) (datums : drow -> bool).
  Hypothesis Hsel : selects_ids ds datums sel.

  Lemma groups_matrix l G1 G2 t s : add_detections eps dloader_init ds = Some l -> loaded eps ds l ->
    aligned d_datum G1 -> aligned d_datum G2 -> concat G1 = concat (l_writes l) -> concat G2 = concat (l_writes l) ->
    det_stored eps ds (l_labels l) (map dsort G1) -> det_stored eps ds (l_labels l) (map dsort G2) ->
    same_matrix (l_labels l) (eval_confusion eps t s datums (map dsort G1)) (eval_confusion eps t s datums (map dsort G2)).
  Proof.
    intros El Hl A1 A2 E1 E2 S1 S2.
    apply (matrix_by_datum eps unit ds (l_labels l) (map dsort G1) (map dsort G2) sel datums t s); auto.
    intros d. rewrite !datum_rows by assumption. congruence.
  Qed.

  Lemma confusion_mem_file bs bs' rpf rb rb' calls calls' em ef t s :
    batching_ok rb' -> concat calls = ds -> concat calls' = ds ->
    mem_evaluates eps unit bs rb calls em -> file_evaluates eps unit bs' rpf rb' calls' ef ->
    exists l, add_detections eps dloader_init ds = Some l /\
    same_matrix (l_labels l) (eval_confusion eps t s datums (de_detailed em)) (eval_confusion eps t s datums (de_detailed ef)).
  Proof.
    intros Hrb E1 E2 Hm Hf.
    destruct (mem_evaluates_spec eps unit ds Hin bs rb calls em E1 Hm) as (l & El & Hl & S1 & _ & _ & T1).
    destruct (file_evaluates_spec eps unit ds Hin bs' rpf rb' calls' ef Hrb E2 Hf) as (l' & gs & El' & Hl' & S2 & _ & _ & Hgs & T2).
    assert (l' = l) by congruence. subst l'. exists l. split; [exact El|].
    rewrite T1 in S1. rewrite T2 in S2. rewrite T1, T2. apply groups_matrix; auto.
    - apply aligned_single.
    - apply aligned_groups. rewrite Hgs. apply (ld_aligned _ _ _ Hl).
    - cbn. apply app_nil_r.
    - rewrite concat_map_concat, Hgs. reflexivity.
  Qed.

  Lemma confusion_file_file bs bs' rpf rpf' rb rb' calls calls' e1 e2 t s :
    batching_ok rb -> batching_ok rb' -> concat calls = ds -> concat calls' = ds ->
    file_evaluates eps unit bs rpf rb calls e1 -> file_evaluates eps unit bs' rpf' rb' calls' e2 ->
    exists l, add_detections eps dloader_init ds = Some l /\
    same_matrix (l_labels l) (eval_confusion eps t s datums (de_detailed e1)) (eval_confusion eps t s datums (de_detailed e2)).
  Proof.
    intros Hr1 Hr2 E1 E2 H1 H2.
    destruct (file_evaluates_spec eps unit ds Hin bs rpf rb calls e1 Hr1 E1 H1) as (l & gs & El & Hl & S1 & _ & _ & G1 & T1).
    destruct (file_evaluates_spec eps unit ds Hin bs' rpf' rb' calls' e2 Hr2 E2 H2) as (l' & gs' & El' & Hl' & S2 & _ & _ & G2 & T2).
    assert (l' = l) by congruence. subst l'. exists l. split; [exact El|].
    rewrite T1 in S1. rewrite T2 in S2. rewrite T1, T2. apply groups_matrix; auto.
    - apply aligned_groups. rewrite G1. apply (ld_aligned _ _ _ Hl).
    - apply aligned_groups. rewrite G2. apply (ld_aligned _ _ _ Hl).
    - rewrite concat_map_concat, G1. reflexivity.
    - rewrite concat_map_concat, G2. reflexivity.
  Qed.
End Storage.
