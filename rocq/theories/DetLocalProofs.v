(* Ranking works datum by datum: the ranked rows of a datum do not depend on the
   other rows of the table, and the ranked order is the same for every storage. *)
From Verif Require Import Prelude Counting CacheModel CacheSpec SortProofs ClsModel DetModel DetSpec DetRankProofs DetCountProofs
  DetLoaderProofs DetStoreProofs.
From Coq Require Import Lia.
Local Open Scope nat_scope.
Local Open Scope list_scope.

(* ------------------------------------------------------------------ *)
(** * Filters commute with the steps of rank_table *)

Lemma isort_filter {A} (leb : A -> A -> bool) (P : A -> bool) l :
  (forall x y, leb x y = true \/ leb y x = true) ->
  (forall x y z, leb x y = true -> leb y z = true -> leb x z = true) ->
  filter P (isort leb l) = isort leb (filter P l).
Proof.
  intros Ht Htr. apply (stable_sort_unique leb Ht (filter P l)).
  - apply stable_sort_filter. apply isort_stable; assumption.
  - apply isort_stable; assumption.
Qed.
Lemma table_sort_filter {A} (sp : sorting A) (P : A -> bool) t :
  filter P (table_sort_by sp t) = table_sort_by sp (filter P t).
Proof. apply isort_filter; [apply row_leb_total|apply row_leb_trans]. Qed.

Lemma firsts_filter {A K} (dec : forall x y : K, {x = y} + {x <> y}) (key : A -> K) (P : A -> bool) :
  (forall a b, key a = key b -> P a = P b) -> forall l seen seen',
  (forall a, P a = true -> kmem dec (key a) seen = kmem dec (key a) seen') ->
  filter P (firsts dec key seen l) = firsts dec key seen' (filter P l).
Proof.
  intros HP. induction l as [|a t IH]; intros seen seen' H; [reflexivity|]. cbn [firsts filter].
  destruct (P a) eqn:Pa.
  - cbn [firsts]. rewrite <- (H a Pa). destruct (kmem dec (key a) seen); [apply IH, H|].
    cbn [filter]. rewrite Pa. f_equal. apply IH. intros b Pb. specialize (H b Pb). unfold kmem in *.
    destruct (in_dec dec (key b) (key a :: seen)) as [I1|I1], (in_dec dec (key b) (key a :: seen')) as [I2|I2],
             (in_dec dec (key b) seen) as [J1|J1], (in_dec dec (key b) seen') as [J2|J2]; cbn in I1, I2; try reflexivity; try discriminate; tauto.
  - destruct (kmem dec (key a) seen); [apply IH, H|]. cbn [filter]. rewrite Pa. apply IH.
    intros b Pb. rewrite <- (H b Pb). unfold kmem.
    destruct (in_dec dec (key b) (key a :: seen)) as [[E|I1]|I1], (in_dec dec (key b) seen) as [J1|J1]; try reflexivity.
    + apply HP in E. congruence.
    + contradiction.
    + exfalso. apply I1. right. exact J1.
Qed.

(* the boundaries of rank_table, computed along the list *)
Definition bnd (unit : Z) (pre : list drow) (r : drow) : Z :=
  if (0 <=? d_gt r)%Z && (d_gl r =? d_pl r)%Z
  then boundary_of unit (map d_iou (filter (gt_mask (gt_key r)) pre)) (d_iou r)
  else (2 * unit)%Z.
Fixpoint annot (unit : Z) (pre l : list drow) : list drow :=
  match l with
  | [] => []
  | r :: t => set_prev r (bnd unit pre r) :: annot unit (pre ++ [r]) t
  end.

Lemma annot_nth unit l : forall pre i,
  nth_error (annot unit pre l) i = option_map (fun r => set_prev r (bnd unit (pre ++ firstn i l) r)) (nth_error l i).
Proof.
  induction l as [|r t IH]; intros pre i; [destruct i; reflexivity|]. destruct i as [|i]; cbn.
  - rewrite app_nil_r. reflexivity.
  - rewrite IH, <- app_assoc. reflexivity.
Qed.

Lemma nth_error_ext {A} (l1 l2 : list A) : (forall i, nth_error l1 i = nth_error l2 i) -> l1 = l2.
Proof.
  revert l2. induction l1 as [|a t IH]; intros [|b u] H; [reflexivity|specialize (H 0); discriminate|specialize (H 0); discriminate|].
  assert (E := H 0). cbn in E. inversion E; subst. f_equal. apply IH. intros i. apply (H (S i)).
Qed.

Lemma rank_table_annot unit t : rank_table unit t = annot unit [] (rank_pairs (table_sort_by det_sorting t)).
Proof.
  unfold rank_table. set (R := rank_pairs (table_sort_by det_sorting t)). apply nth_error_ext. intros i.
  rewrite map2_nth by (rewrite boundaries_length; reflexivity). rewrite annot_nth.
  destruct (nth_error R i) as [r|] eqn:E; [|reflexivity]. rewrite (boundaries_nth unit R i r E). reflexivity.
Qed.

Lemma annot_filter unit (P : drow -> bool) : by_datum P -> forall l pre,
  filter P (annot unit pre l) = annot unit (filter P pre) (filter P l).
Proof.
  intros HP. induction l as [|r t IH]; intros pre; [reflexivity|]. cbn [annot filter].
  assert (E : P (set_prev r (bnd unit pre r)) = P r) by (apply HP; reflexivity). rewrite E.
  destruct (P r) eqn:Pr.
  - cbn [annot]. rewrite IH, filter_app. cbn [filter]. rewrite Pr. f_equal. f_equal. unfold bnd.
    rewrite filter_filter.
    assert (F : filter (gt_mask (gt_key r)) pre = filter (fun x => P x && gt_mask (gt_key r) x) pre); [|rewrite F; reflexivity].
    apply filter_ext. intros x.
    destruct (gt_mask (gt_key r) x) eqn:G; [|rewrite andb_false_r; reflexivity]. apply gt_mask_spec in G. destruct G as [G _].
    assert (P x = true) as ->; [|reflexivity]. rewrite <- Pr. apply HP. unfold gt_key in G. congruence.
  - rewrite IH, filter_app. cbn [filter]. rewrite Pr, app_nil_r. reflexivity.
Qed.

Lemma eligibleb_local (P : drow -> bool) S r : by_datum P -> pds_in_one_datum S -> In r S -> P r = true ->
  eligibleb S r = eligibleb (filter P S) r.
Proof.
  intros HP H1 Hr Pr. apply eq_iff_eq_true. rewrite !eligibleb_spec. unfold eligible.
  split; intros [H0 H]; (split; [exact H0|]); destruct H as [H|H]; auto; right; intros r' Hr' E.
  - apply filter_In in Hr'. apply H; tauto.
  - apply H; [|exact E]. apply filter_In. split; [exact Hr'|]. rewrite <- Pr. apply HP. apply H1; auto. lia.
Qed.

Lemma rank_table_filter unit (P : drow -> bool) t : by_datum P -> pds_in_one_datum t ->
  filter P (rank_table unit t) = rank_table unit (filter P t).
Proof.
  intros HP H1. rewrite !rank_table_annot, annot_filter by exact HP. cbn [filter]. f_equal.
  rewrite !rank_pairs_eq. rewrite table_sort_filter. f_equal. rewrite isort_filter by (apply key_leb_total || apply key_leb_trans).
  f_equal. rewrite (firsts_filter zzz_dec pd_key P) with (seen' := []).
  2:{ intros a b E. apply HP. unfold pd_key in E. congruence. }
  2:{ reflexivity. }
  f_equal. rewrite <- table_sort_filter. set (S := table_sort_by det_sorting t).
  assert (HS : pds_in_one_datum S).
  { intros a b Ha Hb. apply (H1 a b); apply in_sorted_table; assumption. }
  rewrite !filter_filter. assert (G : forall l, (forall x, In x l -> In x S) ->
    filter (fun x => P x && eligibleb S x) l = filter (fun x => eligibleb (filter P S) x && P x) l).
  { induction l as [|x l IH]; intros Hl; [reflexivity|]. cbn [filter]. rewrite IH by (intros y Hy; apply Hl; right; exact Hy).
    destruct (P x) eqn:Px; [|rewrite andb_false_r; reflexivity].
    rewrite <- (eligibleb_local P S x HP HS (Hl x (or_introl eq_refl)) Px), andb_true_r. reflexivity. }
  specialize (G S (fun x H => H)). etransitivity; [|etransitivity; [exact G|]].
  - apply filter_ext. intros x. apply andb_comm.
  - apply filter_ext. intros x. apply andb_comm.
Qed.

(* ------------------------------------------------------------------ *)
(** * The ranked cache, datum by datum *)

Definition of_datum (d : Z) (r : drow) : bool := (d_datum r =? d)%Z.
Lemma of_datum_by d : by_datum (of_datum d).
Proof. intros a b E. unfold of_datum. rewrite E. reflexivity. Qed.

Lemma rank_table_nil unit : rank_table unit [] = [].
Proof. reflexivity. Qed.

Lemma aligned_datum d tables : aligned d_datum tables ->
  filter (of_datum d) (concat tables) = [] \/
  exists i t, nth_error tables i = Some t /\ filter (of_datum d) (concat tables) = filter (of_datum d) t /\
    forall j t', nth_error tables j = Some t' -> j <> i -> filter (of_datum d) t' = [].
Proof.
  intros Ha. destruct (filter (of_datum d) (concat tables)) as [|x u] eqn:E; [left; reflexivity|right].
  assert (Hx : In x (filter (of_datum d) (concat tables))) by (rewrite E; left; reflexivity). rewrite <- E.
  apply filter_In in Hx. destruct Hx as [Hx Px]. apply in_concat in Hx. destruct Hx as (t & Ht & Hx).
  apply In_nth_error in Ht. destruct Ht as (i & Hi). exists i, t. split; [exact Hi|].
  assert (O : forall j t', nth_error tables j = Some t' -> j <> i -> filter (of_datum d) t' = []).
  { intros j t' Hj N. apply filter_none. intros y Hy. destruct (of_datum d y) eqn:Py; [|reflexivity]. exfalso. apply N.
    apply (Ha j i t' t y x Hj Hi Hy Hx). unfold of_datum in *. lia. }
  split; [|exact O]. apply (filter_concat_one (of_datum d) tables i t Hi O).
Qed.

Lemma ranked_by_datum unit tables R d :
  aligned d_datum tables -> pds_in_one_datum (concat tables) -> ranked_of unit tables R ->
  filter (of_datum d) R = rank_table unit (filter (of_datum d) (concat tables)).
Proof.
  intros Ha H1 HR. apply (stable_sort_filter _ (of_datum d)) in HR.
  assert (Hloc : forall t, In t tables -> filter (of_datum d) (rank_table unit t) = rank_table unit (filter (of_datum d) t)).
  { intros t Ht. apply rank_table_filter; [apply of_datum_by|]. intros a b Hx Hy. apply H1; apply in_concat; eauto. }
  assert (E : filter (of_datum d) (concat (map (rank_table unit) tables)) = rank_table unit (filter (of_datum d) (concat tables))).
  { destruct (aligned_datum d tables Ha) as [E|(i & t & Hi & E & O)].
    - rewrite E, rank_table_nil. rewrite filter_concat, map_map. apply concat_nil_Forall. apply Forall_map, Forall_forall.
      intros t Ht. rewrite Hloc by exact Ht.
      assert (filter (of_datum d) t = []) as ->; [|reflexivity].
      apply filter_none. intros x Hx. destruct (of_datum d x) eqn:P; [|reflexivity]. exfalso.
      assert (In x (filter (of_datum d) (concat tables))) by (apply filter_In; split; [apply in_concat; eauto|exact P]). rewrite E in H. destruct H.
    - rewrite E. rewrite (filter_concat_one (of_datum d) (map (rank_table unit) tables) i (rank_table unit t)).
      + apply Hloc. apply (nth_error_In _ _ Hi).
      + rewrite nth_error_map, Hi. reflexivity.
      + intros j l' Hj N. rewrite nth_error_map in Hj. destruct (nth_error tables j) as [t'|] eqn:Et; [|discriminate].
        cbn in Hj. inversion Hj; subst l'. rewrite Hloc by (apply (nth_error_In _ _ Et)). rewrite (O j t' Et N). reflexivity. }
  rewrite E in HR. apply stable_sort_sorted_id in HR; [exact HR|apply row_leb_total|apply rank_table_sorted].
Qed.

(* ------------------------------------------------------------------ *)
(** * Order of the ranked cache *)

Lemma StronglySorted_impl {A} (R1 R2 : A -> A -> Prop) l :
  (forall x y, R1 x y -> R2 x y) -> StronglySorted R1 l -> StronglySorted R2 l.
Proof.
  intros H. induction l as [|a t IH]; intros S; [constructor|]. inversion S; subst. constructor; [auto|].
  eapply Forall_impl; [|eassumption]. intros b. apply H.
Qed.

Definition by_datum_order (tables : list (list drow)) : Prop :=
  forall i j ti tj a b, nth_error tables i = Some ti -> nth_error tables j = Some tj -> i < j -> In a ti -> In b tj ->
    (d_datum a < d_datum b)%Z.

Definition tie_order (x y : drow) : Prop := det_leb x y = true -> det_leb y x = true -> zzz_leb (pd_key x) (pd_key y) = true.

Lemma zzz_leb_first a b : (fst (fst a) < fst (fst b))%Z -> zzz_leb a b = true.
Proof.
  destruct a as [[a1 a2] a3], b as [[b1 b2] b3]. cbn. intros H. unfold zzz_leb. cbn.
  replace (a1 <? b1)%Z with true by lia. reflexivity.
Qed.

Lemma concat_sorted_blocks {A} (Rl : A -> A -> Prop) (ls : list (list A)) :
  (forall l, In l ls -> StronglySorted Rl l) ->
  (forall i j li lj a b, nth_error ls i = Some li -> nth_error ls j = Some lj -> i < j -> In a li -> In b lj -> Rl a b) ->
  StronglySorted Rl (concat ls).
Proof.
  induction ls as [|l t IH]; intros H1 H2; [constructor|]. cbn [concat]. apply StronglySorted_app. split; [|split].
  - apply H1. left. reflexivity.
  - apply IH; [intros l' Hl'; apply H1; right; exact Hl'|]. intros i j li lj a b Hi Hj Hij. apply (H2 (S i) (S j)); auto; lia.
  - intros a b Ha Hb. apply in_concat in Hb. destruct Hb as (l' & Hl' & Hb). apply In_nth_error in Hl'. destruct Hl' as (j & Hj).
    apply (H2 0 (S j) l l'); auto. lia.
Qed.

Lemma ranked_sorted_full unit tables R : by_datum_order tables -> ranked_of unit tables R -> StronglySorted rank_lt R.
Proof.
  intros Ho HR.
  assert (S : StronglySorted tie_order (concat (map (rank_table unit) tables))).
  { apply concat_sorted_blocks.
    - intros l Hl. apply in_map_iff in Hl. destruct Hl as (t & <- & _).
      eapply StronglySorted_impl; [|apply rank_table_sorted_full]. intros x y [H1 H2] _ H. apply H2, H.
    - intros i j li lj a b Hi Hj Hij Hx Hy _ _. rewrite nth_error_map in Hi, Hj.
      destruct (nth_error tables i) as [ti|] eqn:Ei; [|discriminate]. destruct (nth_error tables j) as [tj|] eqn:Ej; [|discriminate].
      cbn in Hi, Hj. inversion Hi; subst li. inversion Hj; subst lj.
      apply rank_table_In in Hx. destruct Hx as (a0 & _ & Ea & Ha0). apply rank_table_In in Hy. destruct Hy as (b0 & _ & Eb & Hb0).
      apply strip_fields in Ea. apply strip_fields in Eb. apply zzz_leb_first. unfold pd_key. cbn.
      assert (D := Ho i j ti tj a0 b0 Ei Ej Hij Ha0 Hb0). destruct Ea as (Ea & _), Eb as (Eb & _). rewrite <- ?Ea, <- ?Eb in *. lia. }
  assert (F := stable_sort_lex _ (row_leb_total det_sorting) tie_order _ _ HR S).
  eapply StronglySorted_impl; [|exact F]. intros x y [H1 H2]. split; [exact H1|]. intros H. apply (H2 H); assumption.
Qed.

Lemma sorted_same {A} (Rl : A -> A -> Prop) : (forall x y, Rl x y -> Rl y x -> x = y) ->
  forall l1 l2, StronglySorted Rl l1 -> StronglySorted Rl l2 -> Permutation l1 l2 -> l1 = l2.
Proof.
  intros Has. induction l1 as [|a t IH]; intros l2 S1 S2 P; [apply Permutation_nil in P; congruence|].
  destruct l2 as [|b u]; [apply Permutation_sym, Permutation_nil in P; discriminate|].
  inversion S1 as [|? ? S1' F1]; subst. inversion S2 as [|? ? S2' F2]; subst. rewrite Forall_forall in F1, F2.
  assert (a = b).
  { assert (Ha : In a (b :: u)) by (apply (Permutation_in _ P); left; reflexivity).
    assert (Hb : In b (a :: t)) by (apply (Permutation_in _ (Permutation_sym P)); left; reflexivity).
    destruct Ha as [->|Ha]; [reflexivity|]. destruct Hb as [->|Hb]; [reflexivity|]. apply Has; auto. }
  subst b. f_equal. apply IH; auto. apply Permutation_cons_inv in P. exact P.
Qed.

Lemma sorted_same_In {A} (Rl : A -> A -> Prop) : forall l1 l2,
  (forall x y, In x l1 -> In y l1 -> Rl x y -> Rl y x -> x = y) ->
  StronglySorted Rl l1 -> StronglySorted Rl l2 -> Permutation l1 l2 -> l1 = l2.
Proof.
  induction l1 as [|a t IH]; intros l2 Has S1 S2 P; [apply Permutation_nil in P; congruence|].
  destruct l2 as [|b u]; [apply Permutation_sym, Permutation_nil in P; discriminate|].
  inversion S1 as [|? ? S1' F1]; subst. inversion S2 as [|? ? S2' F2]; subst. rewrite Forall_forall in F1, F2.
  assert (a = b).
  { assert (Ha : In a (b :: u)) by (apply (Permutation_in _ P); left; reflexivity).
    assert (Hb : In b (a :: t)) by (apply (Permutation_in _ (Permutation_sym P)); left; reflexivity).
    destruct Ha as [->|Ha]; [reflexivity|]. destruct Hb as [->|Hb]; [reflexivity|]. apply Has; auto; [left|right]; auto. }
  subst b. f_equal. apply IH; auto; [intros; apply Has; auto; right; assumption|]. apply Permutation_cons_inv in P. exact P.
Qed.

Lemma NoDup_map_inv_inj {A K} (f : A -> K) l : NoDup (map f l) -> forall x y, In x l -> In y l -> f x = f y -> x = y.
Proof.
  induction l as [|a t IH]; intros H x y Hx Hy E; [destruct Hx|]. cbn in H. inversion H; subst.
  destruct Hx as [->|Hx], Hy as [->|Hy]; auto.
  - exfalso. apply H2. rewrite E. apply in_map. exact Hy.
  - exfalso. apply H2. rewrite <- E. apply in_map. exact Hx.
Qed.

(* two storages with the same rows per datum *)
Lemma ranked_unique unit T1 T2 R1 R2 :
  aligned d_datum T1 -> aligned d_datum T2 -> pds_in_one_datum (concat T1) -> pds_in_one_datum (concat T2) ->
  by_datum_order T1 -> by_datum_order T2 ->
  (forall d, table_sort_by det_sorting (filter (of_datum d) (concat T1)) = table_sort_by det_sorting (filter (of_datum d) (concat T2))) ->
  ranked_of unit T1 R1 -> ranked_of unit T2 R2 -> R1 = R2.
Proof.
  intros A1 A2 P1 P2 O1 O2 HT HR1 HR2.
  assert (K1 := ranked_keys unit T1 R1 A1 HR1). assert (K2 := ranked_keys unit T2 R2 A2 HR2).
  assert (D : forall d, filter (of_datum d) R1 = filter (of_datum d) R2).
  { intros d. rewrite (ranked_by_datum unit T1 R1 d A1 P1 HR1), (ranked_by_datum unit T2 R2 d A2 P2 HR2).
    unfold rank_table. rewrite HT. reflexivity. }
  apply (sorted_same_In rank_lt).
  - intros x y Hx Hy [H1 H2] [H3 H4]. apply (NoDup_map_inv_inj pd_key R1 K1 x y Hx Hy). apply zzz_leb_antisym; [apply H2, H3|apply H4, H1].
  - apply (ranked_sorted_full unit T1 R1 O1 HR1).
  - apply (ranked_sorted_full unit T2 R2 O2 HR2).
  - apply NoDup_Permutation; [apply (NoDup_map_inv _ _ K1)|apply (NoDup_map_inv _ _ K2)|].
    intros x. assert (Ex : forall R, In x R <-> In x (filter (of_datum (d_datum x)) R)).
    { intros R. rewrite filter_In. unfold of_datum. rewrite Z.eqb_refl. tauto. }
    rewrite (Ex R1), (Ex R2), D. tauto.
Qed.
