(* Object detection: replacing the scores without changing their order changes neither the
   matching nor the confusion matrix. *)
From Verif Require Import Prelude Counting CacheModel CacheSpec SortProofs FlowModel ClsModel ClsLabelProofs
  DetModel DetSpec DetMain DetFlowModel DetApProofs DetLocalProofs DetOrderProofs DetReportModel DetEnd DetMore DetPickSpec DetPick
  DetFilterSpec DetFilterProofs DetFilterEntries DetFilterPruned DetFilterMain DetTurnSpec ClsCellModel DetCellModel DetCellSpec DetCellProofs
  DetReorderSpec DetReorderProofs DetLabelSpec DetLabelProofs DetLabelAp.
From Coq Require Import String Lia QArith.
Local Open Scope nat_scope.
Local Open Scope list_scope.
Local Notation length := List.length (only parsing).
Local Notation concat := List.concat (only parsing).

Lemma insert_ext {A} (leb leb' : A -> A -> bool) x l : (forall y, In y l -> leb x y = leb' x y) -> insert leb x l = insert leb' x l.
Proof.
  induction l as [|y l IH]; intros H; [reflexivity|]. cbn [insert]. rewrite <- (H y) by (left; reflexivity). destruct (leb x y); [reflexivity|].
  f_equal. apply IH. intros z Hz. apply H. right. exact Hz.
Qed.
Lemma isort_ext {A} (leb leb' : A -> A -> bool) l : (forall x y, In x l -> In y l -> leb x y = leb' x y) -> isort leb l = isort leb' l.
Proof.
  unfold isort. induction l as [|x l IH]; intros H; [reflexivity|]. cbn [fold_right]. rewrite <- IH by (intros a b Ha Hb; apply H; right; assumption).
  apply insert_ext. intros y Hy. apply H; [left; reflexivity|right]. apply (Permutation_in y (Permutation_sym (isort_perm leb l))). exact Hy.
Qed.
Lemma numbered_map {A B} (h : A -> B) (l : list A) : numbered (map h l) = map (fun x => (fst x, h (snd x))) (numbered l).
Proof.
  unfold numbered. rewrite map_length. generalize 0. induction l as [|a l IH]; intros k; [reflexivity|]. cbn. f_equal. apply IH.
Qed.
Lemma combine_map_r {A B C} (h : B -> C) (a : list A) (b : list B) : combine a (map h b) = map (fun x => (fst x, h (snd x))) (combine a b).
Proof. revert b. induction a as [|x a IH]; intros [|y b]; try reflexivity. cbn. f_equal. apply IH. Qed.

(* ------------------------------------------------------------------ *)
(** * One image *)

Section Image.
  Variables (eps s s' : Z) (f : Z -> Z) (d : detection).
  Hypothesis Hinc : increasing_on eps f (image_scores d).
  Hypothesis Hs : same_place eps s s' f (image_scores d).

  Lemma monotone x y : In x (image_scores d) -> In y (image_scores d) -> (f x <= f y)%Z <-> (x <= y)%Z.
  Proof.
    intros Hx Hy. destruct (Z.lt_trichotomy x y) as [L|[->|L]].
    - assert (A := proj2 (Hinc x Hx) y Hy L). lia.
    - lia.
    - assert (A := proj2 (Hinc y Hy) x Hx L). lia.
  Qed.
  Lemma scores_in a x : In a (t_pds d) -> In x (a_scores a) -> In x (image_scores d).
  Proof. intros Ha Hx. unfold image_scores. apply in_flat_map. exists a. auto. Qed.
  Lemma fold_max_in l x : In (fold_left Z.max l x) (x :: l).
  Proof.
    revert x. induction l as [|y l IH]; intros x; [left; reflexivity|]. cbn [fold_left]. destruct (IH (Z.max x y)) as [E|E]; [|right; right; exact E].
    destruct (Z.max_spec x y) as [(_ & M)|(_ & M)]; rewrite M in E; [right; left; rewrite M; exact E|left; rewrite M; exact E].
  Qed.
  Lemma fold_max_map l x : (forall y, In y (x :: l) -> In y (image_scores d)) -> fold_left Z.max (map f l) (f x) = f (fold_left Z.max l x).
  Proof.
    revert x. induction l as [|y l IH]; intros x H; [reflexivity|]. cbn [map fold_left].
    assert (Hx : In x (image_scores d)) by (apply H; left; reflexivity). assert (Hy : In y (image_scores d)) by (apply H; right; left; reflexivity).
    assert (E : Z.max (f x) (f y) = f (Z.max x y)).
    { assert (A := monotone x y Hx Hy). assert (B := monotone y x Hy Hx). destruct (Z.max_spec x y) as [(L & M)|(L & M)]; rewrite M; lia. }
    rewrite E. apply IH. intros z [<-|Hz]; [|apply H; right; right; exact Hz].
    destruct (Z.max_spec x y) as [(_ & M)|(_ & M)]; rewrite M; assumption.
  Qed.
  Lemma top_score_rescore a : In a (t_pds d) -> a_scores a <> [] -> top_score (rescore_ann f a) = f (top_score a) /\ In (top_score a) (image_scores d).
  Proof.
    intros Ha Hn. unfold top_score, rescore_ann. cbn [a_scores]. destruct (a_scores a) as [|x l] eqn:E; [congruence|]. cbn [map].
    assert (H : forall y, In y (x :: l) -> In y (image_scores d)) by (intros y Hy; apply (scores_in a); [exact Ha|rewrite E; exact Hy]). split.
    - apply fold_max_map. exact H.
    - apply H, fold_max_in.
  Qed.
  Lemma nth_rescore p : nth_error (t_pds (rescore f d)) p = option_map (rescore_ann f) (nth_error (t_pds d) p).
  Proof. apply nth_error_map. Qed.
  Lemma is_scored_rescore p : is_scored (rescore f d) p = is_scored d p.
  Proof. unfold is_scored. rewrite nth_rescore. destruct (nth_error (t_pds d) p) as [a|]; [|reflexivity]. cbn. rewrite map_length. reflexivity. Qed.
  Lemma candidates_rescore : candidates eps (rescore f d) = candidates eps d.
  Proof.
    unfold candidates. cbn [rescore t_pds t_gts t_iou]. rewrite map_length. apply filter_ext. intros x.
    change (MkDet (t_uid d) (t_gts d) (map (rescore_ann f) (t_pds d)) (t_iou d)) with (rescore f d). rewrite is_scored_rescore. reflexivity.
  Qed.
  Lemma best_score_rescore p : is_scored d p = true -> best_score (rescore f d) p = f (best_score d p) /\ In (best_score d p) (image_scores d).
  Proof.
    unfold is_scored, best_score. rewrite nth_rescore. destruct (nth_error (t_pds d) p) as [a|] eqn:E; [|discriminate]. intros H. cbn [option_map].
    apply top_score_rescore; [apply (nth_error_In _ _ E)|]. intros N. rewrite N in H. discriminate.
  Qed.
  Lemma turn_rescore x y : In x (candidates eps d) -> In y (candidates eps d) -> turn_leb (rescore f d) x y = turn_leb d x y.
  Proof.
    intros Hx Hy. unfold candidates in Hx, Hy. apply filter_In in Hx, Hy. destruct Hx as [_ Hx], Hy as [_ Hy]. apply andb_true_iff in Hx, Hy.
    destruct (best_score_rescore _ (proj1 Hx)) as (A & IA). destruct (best_score_rescore _ (proj1 Hy)) as (B & IB).
    unfold turn_leb, turn. rewrite A, B. cbn [t_iou rescore]. cbn [lex_leb].
    assert (P := monotone _ _ IA IB). assert (Q := monotone _ _ IB IA). 
    assert (E1 : ((- f (best_score d (fst x)) <? - f (best_score d (fst y)))%Z = (- best_score d (fst x) <? - best_score d (fst y))%Z)) by lia.
    assert (E2 : ((- f (best_score d (fst x)) =? - f (best_score d (fst y)))%Z = (- best_score d (fst x) =? - best_score d (fst y))%Z)) by lia.
    rewrite E1, E2. reflexivity.
  Qed.
  Lemma matching_rescore p g : matching eps (rescore f d) p g = matching eps d p g.
  Proof.
    unfold matching, matched_pairs. rewrite candidates_rescore. rewrite (isort_ext _ (turn_leb d) _ turn_rescore). reflexivity.
  Qed.
  Lemma reaches_rescore t p g sc : In sc (image_scores d) -> reaches eps t s' (rescore f d) p g (f sc) = reaches eps t s d p g sc.
  Proof.
    intros H. unfold reaches. cbn [rescore t_iou]. destruct (Hs sc H) as (A & B). f_equal. f_equal. f_equal; lia.
  Qed.
  Lemma passes_rescore sc : In sc (image_scores d) -> passes eps s' (f sc) = passes eps s sc.
  Proof. intros H. unfold passes. destruct (Hs sc H) as (A & B). f_equal; lia. Qed.
  Lemma scored_labels_rescore a : scored_labels (rescore_ann f a) = map (fun ls => (fst ls, f (snd ls))) (scored_labels a).
  Proof. apply combine_map_r. Qed.
  Lemma scored_in (pa : nat * annotation) ls : In pa (numbered (t_pds d)) -> In ls (scored_labels (snd pa)) -> In (snd ls) (image_scores d).
  Proof.
    intros Ha Hl. apply (scores_in (snd pa)).
    - destruct pa as [p a]. unfold numbered in Ha. apply in_combine_r in Ha. exact Ha.
    - unfold scored_labels in Hl. destruct ls as [l sc]. apply in_combine_r in Hl. exact Hl.
  Qed.
  Definition re (pa : nat * annotation) : nat * annotation := (fst pa, rescore_ann f (snd pa)).
  Lemma pds_rescore : numbered (t_pds (rescore f d)) = map re (numbered (t_pds d)).
  Proof. apply numbered_map. Qed.
  Lemma existsb_map_in {A B} (h : A -> B) (P : B -> bool) (Q : A -> bool) l : (forall x, In x l -> P (h x) = Q x) -> existsb P (map h l) = existsb Q l.
  Proof. induction l as [|a l IH]; intros H; [reflexivity|]. cbn. rewrite H by (left; reflexivity). f_equal. apply IH. intros x Hx. apply H. right. exact Hx. Qed.
  Lemma existsb_ext_in {A} (P Q : A -> bool) l : (forall x, In x l -> P x = Q x) -> existsb P l = existsb Q l.
  Proof. induction l as [|a l IH]; intros H; [reflexivity|]. cbn. rewrite H by (left; reflexivity). f_equal. apply IH. intros x Hx. apply H. right. exact Hx. Qed.
  Lemma matched_by_rescore t ok ga pa : In pa (numbered (t_pds d)) -> matched_by eps t s' (rescore f d) ok ga (re pa) = matched_by eps t s d ok ga pa.
  Proof.
    intros H. unfold matched_by. cbn [re fst snd]. rewrite matching_rescore, scored_labels_rescore. f_equal.
    apply existsb_map_in. intros ls Hl. cbn [fst snd]. f_equal. apply reaches_rescore. apply (scored_in pa ls H Hl).
  Qed.
  Lemma gt_matched_rescore t ga : gt_matched eps t s' (rescore f d) ga = gt_matched eps t s d ga.
  Proof. unfold gt_matched. rewrite pds_rescore. apply existsb_map_in. intros pa H. apply matched_by_rescore. exact H. Qed.
  Lemma pd_matched_rescore t pa : In pa (numbered (t_pds d)) -> pd_matched eps t s' (rescore f d) (re pa) = pd_matched eps t s d pa.
  Proof. intros H. unfold pd_matched. cbn [rescore t_gts]. apply existsb_ext_in. intros ga _. apply (matched_by_rescore t any_label ga pa H). Qed.
  Lemma flat_map_map_in {A B C D} (h : A -> B) (k : C -> D) (P : B -> list D) (Q : A -> list C) l : (forall x, In x l -> P (h x) = map k (Q x)) -> flat_map P (map h l) = map k (flat_map Q l).
  Proof. induction l as [|a l IH]; intros H; [reflexivity|]. cbn. rewrite map_app, H by (left; reflexivity). f_equal. apply IH. intros x Hx. apply H. right. exact Hx. Qed.
  Lemma cell_pairs_rescore t gl pl : cell_pairs eps t s' (rescore f d) gl pl = map (fun y => (fst y, rescore_ann f (snd y))) (cell_pairs eps t s d gl pl).
  Proof.
    unfold cell_pairs. rewrite pds_rescore. cbn [rescore t_gts]. induction (numbered (t_gts d)) as [|ga l IH]; [reflexivity|]. cbn [flat_map]. rewrite map_app, <- IH. f_equal.
    apply flat_map_map_in. intros pa H. rewrite <- (matched_by_rescore t _ ga pa H).
    change (MkDet (t_uid d) (t_gts d) (map (rescore_ann f) (t_pds d)) (t_iou d)) with (rescore f d).
    destruct (has_label gl (snd ga) && matched_by eps t s' (rescore f d) (String.eqb pl) ga (re pa)); reflexivity.
  Qed.
  Lemma lone_gts_rescore t gl : lone_gts eps t s' (rescore f d) gl = lone_gts eps t s d gl.
  Proof. unfold lone_gts. f_equal. cbn [rescore t_gts]. apply filter_ext. intros ga. f_equal. f_equal. apply (gt_matched_rescore t ga). Qed.
  Lemma filter_map_in {A B} (h : A -> B) (P : B -> bool) (Q : A -> bool) l : (forall x, In x l -> P (h x) = Q x) -> filter P (map h l) = map h (filter Q l).
  Proof. induction l as [|a l IH]; intros H; [reflexivity|]. cbn. rewrite H by (left; reflexivity). destruct (Q a); cbn; rewrite IH by (intros x Hx; apply H; right; exact Hx); reflexivity. Qed.
  Lemma lone_pds_rescore t pl : lone_pds eps t s' (rescore f d) pl = map (rescore_ann f) (lone_pds eps t s d pl).
  Proof.
    unfold lone_pds. rewrite pds_rescore. rewrite (filter_map_in re _ (fun pa => existsb (fun ls => String.eqb pl (fst ls) && passes eps s (snd ls)) (scored_labels (snd pa)) && negb (pd_matched eps t s d pa))).
    - rewrite !map_map. reflexivity.
    - intros pa H. cbn [re fst snd]. rewrite scored_labels_rescore. f_equal; [|f_equal; apply (pd_matched_rescore t pa H)].
      apply existsb_map_in. intros ls Hl. cbn [fst snd]. f_equal. apply passes_rescore. apply (scored_in pa ls H Hl).
  Qed.
End Image.

(* ------------------------------------------------------------------ *)
(** * The whole input *)

Lemma pruned_rescore sel sel' f d : sel' (rescore f d) = sel d ->
  pruned (by_selection full_view sel') (rescore f d) = rescore f (pruned (by_selection full_view sel) d).
Proof.
  intros Hsel. set (w := by_selection full_view sel). set (w' := by_selection full_view sel').
  assert (G : kept_gts w' (rescore f d) = kept_gts w d) by (unfold kept_gts; cbn; rewrite Hsel; reflexivity).
  assert (P : kept_pds w' (rescore f d) = map (re f) (kept_pds w d)).
  { unfold kept_pds. change (t_pds (rescore f d)) with (map (rescore_ann f) (t_pds d)). rewrite numbered_map, map_map.
    assert (E : map (fun x => (fst x, kept_labels w' (rescore f d) (fst x) (rescore_ann f (snd x)))) (numbered (t_pds d))
                = map (re f) (map (fun pa => (fst pa, kept_labels w d (fst pa) (snd pa))) (numbered (t_pds d)))).
    { rewrite map_map. apply map_ext. intros (p, a). unfold re. cbn [fst snd]. f_equal. unfold kept_labels, rescore_ann. cbn [a_uid a_labels a_scores].
      rewrite combine_map_r. assert (F : filter (fun ls => v_pd w' (rescore f d) p (fst ls)) (map (fun x => (fst x, f (snd x))) (combine (a_labels a) (a_scores a)))
        = map (fun x => (fst x, f (snd x))) (filter (fun ls => v_pd w d p (fst ls)) (combine (a_labels a) (a_scores a)))).
      { apply filter_map_in. intros x _. cbn. rewrite Hsel. reflexivity. }
      rewrite F, !map_map. reflexivity. }
    cbn [fst snd]. rewrite E. apply filter_map_in. intros (p, a) _. reflexivity. }
  unfold pruned. fold w w'. rewrite G, P. unfold rescore. cbn [t_uid t_gts t_pds t_iou]. rewrite !map_map. reflexivity.
Qed.
Lemma pruned_scores sel ds d x : In d ds -> In x (image_scores (pruned (by_selection full_view sel) d)) -> In x (all_scores sel ds).
Proof.
  intros Hd Hx. unfold image_scores in Hx. apply in_flat_map in Hx. destruct Hx as (a & Ha & Hx). cbn [pruned t_pds] in Ha. apply in_map_iff in Ha.
  destruct Ha as ((p & b) & <- & Hb). cbn [snd] in Hx. unfold kept_pds in Hb. apply filter_In in Hb. destruct Hb as [Hb _]. apply in_map_iff in Hb.
  destruct Hb as ((q & c) & E & Hc). injection E as <- <-. cbn [fst snd] in *. cbn [kept_labels a_scores] in Hx. apply in_map_iff in Hx.
  destruct Hx as ((l & sc) & <- & Hf). apply filter_In in Hf. destruct Hf as [Hf Hk]. cbn in Hk. unfold all_scores. apply in_flat_map. exists d. split; [exact Hd|].
  destruct (sel d); [|discriminate]. unfold image_scores. apply in_flat_map. exists c. split; [unfold numbered in Hc; apply in_combine_r in Hc; exact Hc|].
  apply in_combine_r in Hf. exact Hf.
Qed.

Section Whole.
  Variables (eps s s' : Z) (f : Z -> Z) (sel sel' : detection -> bool) (ds : list detection).
  Hypothesis Hsame : forall d, In d ds -> sel' (rescore f d) = sel d.
  Hypothesis Hinc : increasing_on eps f (all_scores sel ds).
  Hypothesis Hs : same_place eps s s' f (all_scores sel ds).

  Lemma image_ready d : In d ds -> let d0 := pruned (by_selection full_view sel) d in
    increasing_on eps f (image_scores d0) /\ same_place eps s s' f (image_scores d0) /\
    pruned (by_selection full_view sel') (rescore f d) = rescore f d0.
  Proof.
    intros Hd d0. split; [|split].
    - intros x Hx. destruct (Hinc x (pruned_scores sel ds d x Hd Hx)) as (A & B). split; [exact A|]. intros y Hy. apply B. apply (pruned_scores sel ds d y Hd Hy).
    - intros x Hx. apply Hs. apply (pruned_scores sel ds d x Hd Hx).
    - apply pruned_rescore. apply Hsame. exact Hd.
  Qed.
  Lemma flat_map_ext_in {A B} (P Q : A -> list B) l : (forall x, In x l -> P x = Q x) -> flat_map P l = flat_map Q l.
  Proof. induction l as [|a l IH]; intros H; [reflexivity|]. cbn. rewrite H by (left; reflexivity). f_equal. apply IH. intros x Hx. apply H. right. exact Hx. Qed.
  Lemma flat_map_of_map {A B C} (P : B -> list C) (h : A -> B) l : flat_map P (map h l) = flat_map (fun x => P (h x)) l.
  Proof. induction l as [|a l IH]; [reflexivity|]. cbn. f_equal. exact IH. Qed.
  Theorem dcmx_rescore t names :
    dcmx_of names eps t s' (map (pruned (by_selection full_view sel')) (map (rescore f) ds)) = dcmx_of names eps t s (map (pruned (by_selection full_view sel)) ds).
  Proof.
    unfold dcmx_of. f_equal; apply map_ext; intros g; f_equal.
    - apply map_ext. intros p. f_equal. f_equal. rewrite map_map, !flat_map_of_map. apply flat_map_ext_in. intros d Hd. destruct (image_ready d Hd) as (A & B & ->).
      rewrite (cell_pairs_rescore eps s s' f _ A B), map_map. reflexivity.
    - f_equal. rewrite map_map, !flat_map_of_map. apply flat_map_ext_in. intros d Hd. destruct (image_ready d Hd) as (A & B & ->).
      rewrite (lone_gts_rescore eps s s' f _ A B). reflexivity.
    - f_equal. rewrite map_map, !flat_map_of_map. apply flat_map_ext_in. intros d Hd. destruct (image_ready d Hd) as (A & B & ->).
      rewrite (lone_pds_rescore eps s s' f _ A B), map_map. reflexivity.
  Qed.
End Whole.

Lemma det_labels_rescore f ds : det_labels (map (rescore f) ds) = det_labels ds.
Proof.
  unfold det_labels. f_equal. rewrite map_map. apply map_ext. intros d. cbn [rescore t_gts t_pds]. f_equal. rewrite !map_app, map_map. reflexivity.
Qed.

(* the confusion matrix with its examples *)
Theorem rescore_matrix eps unit ds datums datums' sel sel' e e' f s s' t :
  (0 <= unit)%Z -> det_input unit ds -> det_input unit (map (rescore f) ds) -> few_annotations ds -> Forall distinct_pd_labels ds ->
  det_evaluator eps unit ds e -> det_evaluator eps unit (map (rescore f) ds) e' -> det_selects ds datums sel -> det_selects (map (rescore f) ds) datums' sel' ->
  (forall d, In d ds -> sel' (rescore f d) = sel d) -> increasing_on eps f (all_scores sel ds) -> same_place eps s s' f (all_scores sel ds) ->
  forall M M', det_cmx eps t s datums e = Some M -> det_cmx eps t s' datums' e' = Some M' ->
  forall g, (forall p, dcell_at M g p = dcell_at M' g p) /\ lget (dx_gts M) (Some g) = lget (dx_gts M') (Some g) /\ lget (dx_pds M) (Some g) = lget (dx_pds M') (Some g).
Proof.
  intros Hu Hin Hin' Hann Hdis He He' Hsel Hsel' Hsame Hinc Hs M M' HM HM' g.
  destruct (evaluator_shows eps unit ds Hin e He) as (L & Hsh). destruct (evaluator_shows eps unit _ Hin' e' He') as (L' & Hsh').
  assert (Hann' : few_annotations (map (rescore f) ds)).
  { destruct Hann as (A & B & C). unfold few_annotations. rewrite map_length.
    assert (X : forall k, gts_before (map (rescore f) ds) k = gts_before ds k).
    { intros k. unfold gts_before. f_equal. rewrite firstn_map, map_map. reflexivity. }
    assert (Y : forall k, pds_before (map (rescore f) ds) k = pds_before ds k).
    { intros k. unfold pds_before. f_equal. rewrite firstn_map, map_map. apply map_ext. intros d. cbn. apply map_length. }
    rewrite X, Y. auto. }
  assert (Hdis' : Forall distinct_pd_labels (map (rescore f) ds)).
  { rewrite Forall_forall in Hdis |- *. intros d' Hd. apply in_map_iff in Hd. destruct Hd as (d & <- & Hd). intros a Ha. cbn in Ha. apply in_map_iff in Ha.
    destruct Ha as (b & <- & Hb). cbn. apply (Hdis d Hd b Hb). }
  rewrite (det_cmx_meaning eps unit ds L _ e Hu Hin Hann Hdis Hsh sel datums Hsel t s) in HM.
  rewrite (det_cmx_meaning eps unit _ L' _ e' Hu Hin' Hann' Hdis' Hsh' sel' datums' Hsel' t s') in HM'.
  rewrite (dcmx_rescore eps s s' f sel sel' ds Hsame Hinc Hs) in HM'. injection HM as <-. injection HM' as <-.
  destruct (e_named eps unit ds L _ e Hin Hsh) as (_ & _ & A). destruct (e_named eps unit _ L' _ e' Hin' Hsh') as (_ & _ & B). rewrite det_labels_rescore in B.
  assert (S : forall v, In v (names_of e) <-> In v (names_of e')) by (intros v; rewrite A, B; reflexivity).
  split; [|split].
  - intros p. unfold dcell_at, dcmx_of. cbn [dx_cells]. rewrite !lget_map. destruct (in_dec _ g (names_of e)) as [I|I], (in_dec _ g (names_of e')) as [J|J];
      [|exfalso; apply J, S, I|exfalso; apply I, S, J|reflexivity]. apply lget_same. exact S.
  - unfold dcmx_of. cbn [dx_gts]. apply lget_same. exact S.
  - unfold dcmx_of. cbn [dx_pds]. apply lget_same. exact S.
Qed.

(* ------------------------------------------------------------------ *)
(** * The counts and the precision-recall curve *)

Definition xre (f : Z -> Z) (x : aentry) : aentry := MkA (x_i x) (x_p x) (f (x_sc x)) (x_z x) (x_c x).
Lemma ahits_xre eps t f l : forall pre, (forall x, In x l -> (eps < x_sc x <-> eps < f (x_sc x))%Z) -> ahits eps t (map (xre f) pre) (map (xre f) l) = ahits eps t pre l.
Proof.
  induction l as [|x l IH]; intros pre H; [reflexivity|]. cbn [map ahits]. f_equal.
  - f_equal; [cbn; specialize (H x (or_introl eq_refl)); lia|]. unfold ahit. cbn [xre x_c x_z x_i]. destruct (x_c x) as [g|]; [|reflexivity]. f_equal. f_equal.
    apply existsb_map_in. intros y _. reflexivity.
  - change [xre f x] with (map (xre f) [x]). rewrite <- map_app. apply IH. intros y Hy. apply H. right. exact Hy.
Qed.
Lemma combine_map_l {A B C} (h : A -> C) (a : list A) (b : list B) : combine (map h a) b = map (fun x => (h (fst x), snd x)) (combine a b).
Proof. revert b. induction a as [|x a IH]; intros [|y b]; try reflexivity. cbn. f_equal. apply IH. Qed.

Section Rescored.
  Variables (eps unit : Z) (ds : list detection) (sel sel' : detection -> bool) (datums datums' : drow -> bool) (e e' : deval) (f : Z -> Z).
  Hypothesis Heps : (0 < eps)%Z.
  Hypothesis Hu : (0 <= unit)%Z.
  Hypothesis Hin : det_input unit ds.
  Hypothesis Hsel : det_selects ds datums sel.
  Hypothesis Hsel' : det_selects (map (rescore f) ds) datums' sel'.
  Hypothesis He : det_evaluator eps unit ds e.
  Hypothesis He' : det_evaluator eps unit (map (rescore f) ds) e'.
  Hypothesis Hfew : few_det_labels ds.
  Hypothesis Hdis : Forall distinct_pd_labels ds.
  Hypothesis Hsame : forall d, In d ds -> sel' (rescore f d) = sel d.
  Hypothesis Hf : increasing_on eps f (all_scores sel ds).
  Local Notation u := (by_selection full_view sel).
  Local Notation u' := (by_selection full_view sel').
  Local Notation ds' := (map (rescore f) ds).

  Lemma rescore_input : det_input unit ds'.
  Proof.
    unfold det_input in *. rewrite Forall_forall in Hin |- *. intros d' Hd. apply in_map_iff in Hd. destruct Hd as (d & <- & Hd). destruct (Hin d Hd) as (A & B & C).
    split; [|split; [exact B|exact C]]. unfold det_ok in *. cbn [rescore t_gts t_pds]. rewrite !andb_true_iff in *. destruct A as ((A1 & A2) & A3). split; [split|].
    - exact A1.
    - rewrite forallb_forall in A2 |- *. intros a Ha. apply in_map_iff in Ha. destruct Ha as (b & <- & Hb). specialize (A2 b Hb). unfold ann_ok, rescore_ann in *. cbn. rewrite map_length. exact A2.
    - rewrite forallb_forall in A3 |- *. intros a Ha. apply in_map_iff in Ha. destruct Ha as (b & <- & Hb). specialize (A3 b Hb). cbn. rewrite map_length. exact A3.
  Qed.
  Lemma rescore_few : few_det_labels ds'.
  Proof. unfold few_det_labels. rewrite det_labels_rescore. exact Hfew. Qed.
  Lemma rescore_distinct : Forall distinct_pd_labels ds'.
  Proof.
    rewrite Forall_forall in Hdis |- *. intros d' Hd. apply in_map_iff in Hd. destruct Hd as (d & <- & Hd). intros a Ha. cbn in Ha. apply in_map_iff in Ha.
    destruct Ha as (b & <- & Hb). cbn. apply (Hdis d Hd b Hb).
  Qed.
  Lemma entry_score v x : entry eps ds u v x -> In (x_sc x) (all_scores sel ds).
  Proof.
    intros (d & pa & n & Hd & Hp & _ & Hsc & Hv & _). cbn in Hv. unfold all_scores. apply in_flat_map. exists d. split; [apply (nth_error_In _ _ Hd)|].
    destruct (sel d); [|discriminate]. unfold image_scores. apply in_flat_map. exists pa. split; [apply (nth_error_In _ _ Hp)|apply (nth_error_In _ _ Hsc)].
  Qed.
  Lemma entry_xre v x : entry eps ds u v x -> entry eps ds' u' v (xre f x).
  Proof.
    intros (d & pa & n & Hd & Hp & Hl & Hsc & Hv & Hc). assert (Es := Hsame d (nth_error_In _ _ Hd)).
    exists (rescore f d), (rescore_ann f pa), n. cbn [xre x_i x_p x_sc x_c x_z].
    split; [rewrite nth_error_map, Hd; reflexivity|]. split; [cbn; rewrite nth_error_map, Hp; reflexivity|]. split; [exact Hl|].
    split; [cbn; rewrite nth_error_map, Hsc; reflexivity|]. split; [cbn in *; rewrite Es; exact Hv|].
    destruct (x_c x) as [g|]; cbn in *; rewrite Es; exact Hc.
  Qed.
  Lemma entry_back v y : entry eps ds' u' v y -> exists x, y = xre f x /\ entry eps ds u v x.
  Proof.
    intros (d' & pa' & n & Hd & Hp & Hl & Hsc & Hv & Hc). rewrite nth_error_map in Hd. destruct (nth_error ds (x_i y)) as [d|] eqn:Ed; [|discriminate]. injection Hd as <-.
    cbn [rescore t_pds] in Hp. rewrite nth_error_map in Hp. destruct (nth_error (t_pds d) (x_p y)) as [pa|] eqn:Ep; [|discriminate]. injection Hp as <-.
    cbn [rescore_ann a_scores] in Hsc. rewrite nth_error_map in Hsc. destruct (nth_error (a_scores pa) n) as [sc|] eqn:Esc; [|discriminate]. injection Hsc as Hsc.
    assert (Es := Hsame d (nth_error_In _ _ Ed)).
    exists (MkA (x_i y) (x_p y) sc (x_z y) (x_c y)). split; [destruct y; unfold xre; cbn in *; rewrite Hsc; reflexivity|].
    exists d, pa, n. cbn [x_i x_p x_sc x_z x_c]. split; [exact Ed|]. split; [exact Ep|]. split; [exact Hl|]. split; [exact Esc|]. split; [cbn in *; rewrite <- Es; exact Hv|].
    destruct (x_c y) as [g|]; cbn in *; rewrite <- Es; exact Hc.
  Qed.
  Lemma canonical_xre v l : canonical eps ds u v l -> canonical eps ds' u' v (map (xre f) l).
  Proof.
    intros [A B C].
    assert (Inj : forall x y, In x l -> In y l -> (x_sc x <= x_sc y <-> f (x_sc x) <= f (x_sc y))%Z).
    { intros x y Hx Hy. apply A, entry_score in Hx. apply A, entry_score in Hy. destruct (Z.lt_trichotomy (x_sc x) (x_sc y)) as [T|[T|T]].
      - assert (Q := proj2 (Hf _ Hx) _ Hy T). lia.
      - rewrite T. lia.
      - assert (Q := proj2 (Hf _ Hy) _ Hx T). lia. }
    split.
    - intros y. rewrite in_map_iff. split.
      + intros (x & <- & Hx). apply entry_xre, A, Hx.
      + intros Hy. destruct (entry_back v y Hy) as (x & -> & Hx). exists x. split; [reflexivity|apply A, Hx].
    - clear A C. induction B as [|x l N B IH]; [constructor|]. cbn. constructor; [|apply IH; intros a b Ha Hb; apply Inj; right; assumption].
      rewrite in_map_iff. intros (y & E & Hy). unfold xre in E. injection E as E1 E2 E3 E4 E5. assert (P := Inj x y (or_introl eq_refl) (or_intror Hy)).
      assert (Q := Inj y x (or_intror Hy) (or_introl eq_refl)). assert (x_sc y = x_sc x) by lia. apply N. destruct x, y. cbn in *. subst. exact Hy.
    - clear A B. induction C as [|x l C IH F]; [constructor|]. cbn. constructor; [apply IH; intros a b Ha Hb; apply Inj; right; assumption|].
      rewrite Forall_forall in F |- *. intros y Hy. apply in_map_iff in Hy. destruct Hy as (z & <- & Hz). specialize (F z Hz).
      assert (P := Inj x z (or_introl eq_refl) (or_intror Hz)). assert (Q := Inj z x (or_intror Hz) (or_introl eq_refl)). unfold a_le, xre in *. cbn [x_i x_p x_sc x_z x_c]. lia.
  Qed.
  Lemma rescore_gts v : gts_where (fun _ => true) (fun d g => v_gt u' d g) ds' v = gts_where (fun _ => true) (fun d g => v_gt u d g) ds v.
  Proof.
    unfold gts_where. rewrite map_map. apply list_sum_nat_ext. intros d Hd. apply countb_ext. intros ga _. cbn. rewrite (Hsame d Hd). reflexivity.
  Qed.

  Section Label.
    Variables (v : string) (vi vi' : nat).
    Hypothesis Hv : label_no e v vi.
    Hypothesis Hv' : label_no e' v vi'.

    Lemma rescore_report : rep_gts e datums (Z.of_nat vi) = rep_gts e' datums' (Z.of_nat vi') /\
      (forall t s s', (0 < t)%Z -> same_place eps s s' f (all_scores sel ds) ->
        rep_tp eps e datums t s (Z.of_nat vi) = rep_tp eps e' datums' t s' (Z.of_nat vi') /\ rep_fp eps e datums t s (Z.of_nat vi) = rep_fp eps e' datums' t s' (Z.of_nat vi')) /\
      (forall t b, (0 < t)%Z -> rep_curve eps e datums t (Z.of_nat vi) b = rep_curve eps e' datums' t (Z.of_nat vi') b).
    Proof.
      destruct (evaluator_shows eps unit ds Hin e He) as (L & S). destruct (evaluator_shows eps unit ds' rescore_input e' He') as (L' & S').
      destruct (shown_report eps unit ds L full_view e Heps Hu Hin Hfew Hdis S datums sel Hsel v vi Hv) as (l & Hl & Eg & Et & Ef & Ec).
      destruct (shown_report eps unit ds' L' full_view e' Heps Hu rescore_input rescore_few rescore_distinct S' datums' sel' Hsel' v vi' Hv') as (l' & Hl' & Eg' & Et' & Ef' & Ec').
      assert (l' = map (xre f) l) as -> by (apply (canonical_unique eps ds' u' v); [apply rescore_distinct|exact Hl'|apply canonical_xre; exact Hl]).
      assert (Hh : forall t, ahits eps t [] (map (xre f) l) = ahits eps t [] l).
      { intros t. change (@nil aentry) with (map (xre f) []) at 1. apply ahits_xre. intros x Hx. apply Hf. apply (entry_score v), (can_in _ _ _ _ _ Hl), Hx. }
      assert (G : rep_gts e datums (Z.of_nat vi) = rep_gts e' datums' (Z.of_nat vi')) by (rewrite Eg, Eg', rescore_gts; reflexivity).
      split; [exact G|]. split.
      - intros t s s' Ht Hs.
        assert (K : forall x, In x l -> (eps < x_sc x <-> eps < f (x_sc x))%Z /\ (s <= x_sc x <-> s' <= f (x_sc x))%Z).
        { intros x Hx. destruct (Hs (x_sc x)) as (A & B); [apply (entry_score v), (can_in _ _ _ _ _ Hl), Hx|]. split; assumption. }
        assert (T : rep_tp eps e datums t s (Z.of_nat vi) = rep_tp eps e' datums' t s' (Z.of_nat vi')).
        { rewrite (Et t s Ht), (Et' t s' Ht), Hh, combine_map_l, countb_map. apply countb_ext. intros (x, h) Hx. apply in_combine_l in Hx. destruct (K x Hx) as (_ & A). cbn. f_equal. lia. }
        split; [exact T|]. assert (X := Ef t s Ht). assert (Y := Ef' t s' Ht). rewrite countb_map in Y.
        assert (Z : countb (fun x => (eps <? x_sc x)%Z && (s <=? x_sc x)%Z) l = countb (fun x => (eps <? x_sc (xre f x))%Z && (s' <=? x_sc (xre f x))%Z) l).
        { apply countb_ext. intros x Hx. destruct (K x Hx) as (A & B). cbn. f_equal; lia. }
        lia.
      - intros t b Ht. rewrite (Ec t b Ht), (Ec' t b Ht), Hh, G. reflexivity.
    Qed.
    Theorem rescore_counts t s s' : (0 < t)%Z -> same_place eps s s' f (all_scores sel ds) ->
      rep_gts e datums (Z.of_nat vi) = rep_gts e' datums' (Z.of_nat vi') /\
      rep_tp eps e datums t s (Z.of_nat vi) = rep_tp eps e' datums' t s' (Z.of_nat vi') /\
      rep_fp eps e datums t s (Z.of_nat vi) = rep_fp eps e' datums' t s' (Z.of_nat vi') /\
      rep_fn eps e datums t s (Z.of_nat vi) = rep_fn eps e' datums' t s' (Z.of_nat vi') /\
      rep_precision eps e datums t s (Z.of_nat vi) = rep_precision eps e' datums' t s' (Z.of_nat vi') /\
      rep_recall eps e datums t s (Z.of_nat vi) = rep_recall eps e' datums' t s' (Z.of_nat vi') /\
      rep_f1 eps e datums t s (Z.of_nat vi) = rep_f1 eps e' datums' t s' (Z.of_nat vi').
    Proof.
      intros Ht Hs. destruct rescore_report as (G & C & _). destruct (C t s s' Ht Hs) as (T & F). unfold rep_fn, rep_precision, rep_recall, rep_f1, rep_tp, rep_fp in *.
      assert (E : rep_counts eps e datums t s (Z.of_nat vi) = rep_counts eps e' datums' t s' (Z.of_nat vi')).
      { destruct (rep_counts eps e datums t s (Z.of_nat vi)), (rep_counts eps e' datums' t s' (Z.of_nat vi')). cbn in *. congruence. }
      rewrite E, G. repeat split; reflexivity.
    Qed.
    Theorem rescore_ap t : (0 < t)%Z ->
      rep_ap eps e datums t (Z.of_nat vi) = rep_ap eps e' datums' t (Z.of_nat vi') /\
      rep_pr_curve eps e datums t (Z.of_nat vi) = rep_pr_curve eps e' datums' t (Z.of_nat vi').
    Proof.
      intros Ht. destruct rescore_report as (_ & _ & C). split.
      - unfold rep_ap. apply average_precision_ext. intros b. apply C. exact Ht.
      - unfold rep_pr_curve. f_equal. apply run_max_ext. intros b. apply C. exact Ht.
    Qed.
  End Label.

  Theorem rescore_map t : (0 < t)%Z -> same_number (rep_map eps e datums t) (rep_map eps e' datums' t).
  Proof.
    intros Ht. unfold rep_map, mean_ap. apply qmean_same. rewrite <- !concat_singletons.
    destruct (end_axis eps unit ds e Hin He) as (L1 & N1 & I1 & B1 & A1 & _). destruct (end_axis eps unit _ e' rescore_input He') as (L2 & N2 & I2 & B2 & A2 & _).
    rewrite A1, A2, !map_map.
    apply (same_values_opt (fun v => Some (rep_ap eps e datums t (idx L1 v))) (fun v => Some (rep_ap eps e' datums' t (idx L2 v)))).
    - apply NoDup_Permutation; auto. intros v. rewrite I1, I2, det_labels_rescore. reflexivity.
    - intros v Hv. assert (Hv1 : In v L1) by (apply I1; apply I2 in Hv; rewrite det_labels_rescore in Hv; exact Hv).
      destruct (index_of v L1) as [k1|] eqn:E1; [|apply index_of_None in E1; contradiction]. destruct (index_of v L2) as [k2|] eqn:E2; [|apply index_of_None in E2; contradiction].
      unfold idx. rewrite E1, E2. cbn. destruct (rescore_ap v k1 k2 (proj2 (B1 v k1) E1) (proj2 (B2 v k2) E2) t Ht) as (-> & _). reflexivity.
  Qed.
End Rescored.
Theorem rescore_cmx eps unit ds sel sel' datums datums' e e' f :
  (0 <= unit)%Z -> det_input unit ds -> det_selects ds datums sel -> det_selects (map (rescore f) ds) datums' sel' ->
  det_evaluator eps unit ds e -> det_evaluator eps unit (map (rescore f) ds) e' -> few_annotations ds -> Forall distinct_pd_labels ds ->
  (forall d, In d ds -> sel' (rescore f d) = sel d) -> increasing_on eps f (all_scores sel ds) -> forall t s s', same_place eps s s' f (all_scores sel ds) ->
  forall M M', det_cmx eps t s datums e = Some M -> det_cmx eps t s' datums' e' = Some M' ->
  forall g, (forall p, dcell_at M g p = dcell_at M' g p) /\ lget (dx_gts M) (Some g) = lget (dx_gts M') (Some g) /\ lget (dx_pds M) (Some g) = lget (dx_pds M') (Some g).
Proof.
  intros Hu Hin Hs Hs' He He' Ha Hd Hsame Hf t s s' Hp.
  apply (rescore_matrix eps unit ds datums datums' sel sel' e e' f s s' t Hu Hin (rescore_input unit ds f Hin) Ha Hd He He' Hs Hs' Hsame Hf Hp).
Qed.
