(* Detection counts (C28 - C31). *)
From Verif Require Import Prelude Counting CacheModel CacheSpec SortProofs ClsModel ClsProofs DetModel DetSpec DetRankProofs.
From Coq Require Import Lia String QArith Qminmax.
Local Open Scope nat_scope.
Local Open Scope list_scope.

(* ------------------------------------------------------------------ *)
(** * Boundary columns *)

(* [F]: the rows of one ground truth with its own label, in ranked order *)
Definition bound_chain (F : list drow) : Prop :=
  forall l1 r l2, F = l1 ++ r :: l2 -> forall t, (0 < t)%Z -> (t <= d_iou r)%Z ->
    ((d_prev r < t)%Z <-> forall e, In e l1 -> (d_iou e < t)%Z).

Lemma label_match_small r : (-1 <= d_gl r < 100000)%Z -> (-1 <= d_pl r < 100000)%Z ->
  label_match r = (d_gl r =? d_pl r)%Z.
Proof.
  intros H1 H2. unfold label_match, isclose_label. destruct (Z.eqb_spec (d_gl r) (d_pl r)) as [E|E].
  - rewrite E. replace (d_pl r - d_pl r)%Z with 0%Z by lia. lia.
  - lia.
Qed.

Record ranked_ok (R : list drow) : Prop := {
  ro_sorted : StronglySorted (leP det_leb) R;
  ro_keys : NoDup (map pd_key R);
  ro_chain : forall k, (0 <= snd (fst k))%Z -> bound_chain (filter (gt_mask k) R);
  ro_labels : labels_small R
}.

Lemma filter_split {A} (P : A -> bool) l l1 r l2 : filter P l = l1 ++ r :: l2 ->
  exists m1 m2, l = m1 ++ r :: m2 /\ filter P m1 = l1 /\ filter P m2 = l2 /\ P r = true.
Proof.
  revert l1. induction l as [|a t IH]; intros l1 E; [destruct l1; discriminate|].
  cbn [filter] in E. destruct (P a) eqn:Ea.
  - destruct l1 as [|b l1]; simpl in E; inversion E; subst.
    + exists [], t. repeat split; auto.
    + destruct (IH l1 H1) as (m1 & m2 & -> & E1 & E2 & Er). exists (b :: m1), m2.
      repeat split; auto. cbn [filter]. rewrite Ea, E1. reflexivity.
  - destruct (IH l1 E) as (m1 & m2 & -> & E1 & E2 & Er). exists (a :: m1), m2.
    repeat split; auto. cbn [filter]. rewrite Ea. exact E1.
Qed.

Lemma firstn_map2 {A B C} (f : A -> B -> C) n : forall l1 l2, firstn n (map2 f l1 l2) = map2 f (firstn n l1) (firstn n l2).
Proof. induction n as [|n IH]; intros [|a t] [|b u]; simpl; try reflexivity. rewrite IH. reflexivity. Qed.

Lemma map2_prev_ious k : forall R B, List.length R = List.length B ->
  map d_iou (filter (gt_mask k) (map2 set_prev R B)) = map d_iou (filter (gt_mask k) R).
Proof.
  induction R as [|a t IH]; intros [|b u] Hl; try discriminate; [reflexivity|].
  cbn [map2 filter]. change (gt_mask k (set_prev a b)) with (gt_mask k a).
  destruct (gt_mask k a); cbn [map]; rewrite IH by (injection Hl; auto); reflexivity.
Qed.

Lemma rank_table_chain unit t k : (0 <= unit)%Z -> (forall r, In r t -> (d_iou r <= unit)%Z) ->
  (0 <= snd (fst k))%Z -> bound_chain (filter (gt_mask k) (rank_table unit t)).
Proof.
  intros Hu Hi Hk l1 r l2 E th Hth Hr.
  apply filter_split in E. destruct E as (m1 & m2 & E & E1 & E2 & Em).
  set (R := rank_pairs (table_sort_by det_sorting t)) in *.
  assert (Hlen : List.length R = List.length (ranking_boundaries unit R)) by (symmetry; apply boundaries_length).
  assert (Hn : nth_error (rank_table unit t) (List.length m1) = Some r).
  { rewrite E. rewrite nth_error_app2 by lia. rewrite Nat.sub_diag. reflexivity. }
  unfold rank_table in Hn. fold R in Hn. rewrite map2_nth in Hn by exact Hlen.
  destruct (nth_error R (List.length m1)) as [r0|] eqn:Er0; [|discriminate].
  rewrite (boundaries_nth unit R _ r0 Er0) in Hn.
  apply gt_mask_spec in Em. destruct Em as [Ekey Elab].
  assert (Hr0 : gt_key r0 = k /\ d_gl r0 = d_pl r0 /\ d_iou r0 = d_iou r).
  { inversion Hn as [Hn']. rewrite <- Hn' in Ekey, Elab. split; [exact Ekey|]. split; [exact Elab|reflexivity]. }
  destruct Hr0 as (K0 & L0 & I0).
  assert (Hg : (0 <=? d_gt r0)%Z && (d_gl r0 =? d_pl r0)%Z = true).
  { apply andb_true_iff. split; [|apply Z.eqb_eq; exact L0]. rewrite <- K0 in Hk. simpl in Hk. lia. }
  rewrite Hg in Hn. inversion Hn as [Hn']. clear Hn.
  assert (Hp : d_prev r = boundary_of unit (map d_iou (filter (gt_mask k) (firstn (List.length m1) R))) (d_iou r)).
  { rewrite <- Hn'. rewrite K0. reflexivity. }
  rewrite Hn'. rewrite Hp.
  assert (El : map d_iou l1 = map d_iou (filter (gt_mask k) (firstn (List.length m1) R))).
  { rewrite <- E1. assert (Em1 : m1 = firstn (List.length m1) (rank_table unit t)).
    { rewrite E. rewrite firstn_app, Nat.sub_diag, firstn_all. simpl. rewrite app_nil_r. reflexivity. }
    rewrite Em1 at 1. unfold rank_table. fold R. rewrite firstn_map2. apply map2_prev_ious.
    rewrite !firstn_length. rewrite Hlen. reflexivity. }
  rewrite <- El.
  assert (Hiu : (d_iou r <= 2 * unit)%Z).
  { rewrite <- I0. assert (In r0 R) by (apply (nth_error_In _ _ Er0)).
    apply rank_pairs_In in H. destruct H as (H & _). specialize (Hi r0 H). lia. }
  rewrite (boundary_of_spec unit (map d_iou l1) (d_iou r) th Hth Hr Hiu).
  split; intros H.
  - intros e He. apply H. apply in_map. exact He.
  - intros y Hy. apply in_map_iff in Hy. destruct Hy as (e & <- & He). apply H. exact He.
Qed.

Lemma rank_table_In unit t r : In r (rank_table unit t) ->
  exists r0, In r0 (rank_pairs (table_sort_by det_sorting t)) /\ strip r0 = strip r /\ In r0 t.
Proof.
  intros H. assert (Hs : In (strip r) (map strip (rank_table unit t))) by (apply in_map; exact H).
  rewrite rank_table_strip in Hs. apply in_map_iff in Hs. destruct Hs as (r0 & E & Hr0).
  exists r0. split; [exact Hr0|]. split; [exact E|]. apply rank_pairs_In in Hr0. tauto.
Qed.

Lemma strip_fields r r0 : strip r0 = strip r ->
  d_datum r0 = d_datum r /\ d_gt r0 = d_gt r /\ d_gl r0 = d_gl r /\ d_pd r0 = d_pd r /\ d_pl r0 = d_pl r /\
  d_score r0 = d_score r /\ d_iou r0 = d_iou r.
Proof. unfold strip, set_prev. intros H. inversion H. repeat split; assumption. Qed.

Lemma StronglySorted_map_inv {A B} (R : B -> B -> Prop) (f : A -> B) l :
  StronglySorted R (map f l) <-> StronglySorted (fun x y => R (f x) (f y)) l.
Proof.
  induction l as [|a t IH]; simpl; [split; constructor|].
  split; intros H; inversion H as [|? ? Hs Hf]; subst; constructor.
  - apply IH; exact Hs.
  - rewrite Forall_forall in *. intros x Hx. apply Hf. apply in_map. exact Hx.
  - apply IH; exact Hs.
  - rewrite Forall_forall in *. intros x Hx. apply in_map_iff in Hx. destruct Hx as (y & <- & Hy). apply Hf; exact Hy.
Qed.

Lemma rank_table_sorted_full unit t : StronglySorted rank_lt (rank_table unit t).
Proof.
  assert (H := rank_pairs_sorted_full (table_sort_by det_sorting t)).
  change rank_lt with (fun x y => rank_lt (strip x) (strip y)).
  apply StronglySorted_map_inv. rewrite rank_table_strip. apply StronglySorted_map_inv. exact H.
Qed.

Lemma rank_table_sorted unit t : StronglySorted (leP det_leb) (rank_table unit t).
Proof.
  assert (H := rank_table_sorted_full unit t). induction H as [|a l H IH Hf]; constructor; [exact IH|].
  rewrite Forall_forall in *. intros x Hx. apply (Hf x Hx).
Qed.

Lemma rank_table_keys unit t : NoDup (map pd_key (rank_table unit t)).
Proof. rewrite (rank_table_map pd_key); [apply rank_pairs_NoDup_keys|reflexivity]. Qed.

(* ------------------------------------------------------------------ *)
(** * The ranked cache *)

(* [R]: the rows of the ranked cache, in order, for the detailed tables *)
Definition ranked_of (unit : Z) (tables : list (list drow)) (R : list drow) : Prop :=
  stable_sort_of (row_leb det_sorting) (List.concat (map (rank_table unit) tables)) R.

Lemma ranked_In unit tables R r : ranked_of unit tables R -> In r R ->
  exists t r0, In t tables /\ In r0 t /\ strip r0 = strip r /\ In r (rank_table unit t).
Proof.
  intros H Hr. apply (stable_sort_perm _ (row_leb_total _) (row_leb_trans _)) in H.
  apply (Permutation_in r (Permutation_sym H)) in Hr. apply in_concat in Hr.
  destruct Hr as (l & Hl & Hr). apply in_map_iff in Hl. destruct Hl as (t & <- & Ht).
  destruct (rank_table_In unit t r Hr) as (r0 & _ & E & Hin). exists t, r0. auto.
Qed.

Lemma filter_concat_one {A} (P : A -> bool) (ls : list (list A)) i l :
  nth_error ls i = Some l ->
  (forall j l', nth_error ls j = Some l' -> j <> i -> filter P l' = []) ->
  filter P (List.concat ls) = filter P l.
Proof.
  revert i. induction ls as [|a t IH]; intros i Hi Ho; [destruct i; discriminate|].
  cbn [List.concat]. rewrite filter_app. destruct i as [|i].
  - inversion Hi; subst. assert (E : filter P (List.concat t) = []).
    { rewrite filter_concat. assert (H : forall l', In l' (map (filter P) t) -> l' = []).
      { intros l' Hl'. apply in_map_iff in Hl'. destruct Hl' as (x & <- & Hx).
        apply In_nth_error in Hx. destruct Hx as (j & Hj). apply (Ho (S j) x); [exact Hj|discriminate]. }
      clear -H. induction (map (filter P) t) as [|x u IHu]; [reflexivity|]. cbn [List.concat].
      rewrite (H x) by (left; reflexivity). apply IHu. intros l' Hl'. apply H. right; exact Hl'. }
    rewrite E, app_nil_r. reflexivity.
  - rewrite (Ho 0 a); [|reflexivity|discriminate]. simpl. apply (IH i Hi).
    intros j l' Hj Hne. apply (Ho (S j) l' Hj). lia.
Qed.

(* the rows of one ground truth all come from one table *)
Lemma ranked_gt_rows unit tables R k : aligned d_datum tables -> ranked_of unit tables R ->
  filter (gt_mask k) R = [] \/ exists t, In t tables /\ filter (gt_mask k) R = filter (gt_mask k) (rank_table unit t).
Proof.
  intros Ha H.
  destruct (filter (gt_mask k) (List.concat (map (rank_table unit) tables))) as [|r0 rest] eqn:E0.
  - left. assert (Hf := stable_sort_filter _ (gt_mask k) _ _ H). rewrite E0 in Hf.
    apply (stable_sort_perm _ (row_leb_total _) (row_leb_trans _)) in Hf. apply Permutation_nil in Hf. exact Hf.
  - right.
    assert (Hr0 : In r0 (filter (gt_mask k) (List.concat (map (rank_table unit) tables)))) by (rewrite E0; left; reflexivity).
    apply filter_In in Hr0. destruct Hr0 as [Hr0 Hm0].
    apply in_concat in Hr0. destruct Hr0 as (l & Hl & Hr0). apply In_nth_error in Hl. destruct Hl as (i & Hi).
    rewrite nth_error_map in Hi. destruct (nth_error tables i) as [t|] eqn:Et; [|discriminate].
    inversion Hi; subst l. exists t. split; [apply (nth_error_In _ _ Et)|].
    assert (Ec : filter (gt_mask k) (List.concat (map (rank_table unit) tables)) = filter (gt_mask k) (rank_table unit t)).
    { apply (filter_concat_one _ _ i); [rewrite nth_error_map, Et; reflexivity|].
      intros j l' Hj Hne. rewrite nth_error_map in Hj. destruct (nth_error tables j) as [t'|] eqn:Et'; [|discriminate].
      inversion Hj; subst l'. apply filter_none. intros x Hx. apply not_true_iff_false. intros Hm.
      apply Hne. apply gt_mask_spec in Hm. apply gt_mask_spec in Hm0.
      destruct (rank_table_In unit t r0 Hr0) as (a & _ & Ea & Ha').
      destruct (rank_table_In unit t' x Hx) as (b & _ & Eb & Hb').
      apply strip_fields in Ea. apply strip_fields in Eb.
      apply (Ha j i t' t b a Et' Et Hb' Ha').
      destruct Hm as [Hm _], Hm0 as [Hm0 _]. rewrite <- Hm0 in Hm. unfold gt_key in Hm. inversion Hm.
      destruct Ea as (-> & _), Eb as (-> & _). assumption. }
    assert (Hf := stable_sort_filter _ (gt_mask k) _ _ H). rewrite Ec in Hf.
    apply (stable_sort_sorted_id _ (row_leb_total _) _ _ Hf).
    apply StronglySorted_filter. apply rank_table_sorted.
Qed.

Lemma NoDup_concat_map {A K} (f : A -> K) (ls : list (list A)) :
  (forall l, In l ls -> NoDup (map f l)) ->
  (forall i j li lj a b, nth_error ls i = Some li -> nth_error ls j = Some lj -> i <> j ->
     In a li -> In b lj -> f a <> f b) ->
  NoDup (map f (List.concat ls)).
Proof.
  induction ls as [|l t IH]; intros H1 H2; [constructor|].
  cbn [List.concat]. rewrite map_app. apply NoDup_app_disjoint.
  - apply H1. left; reflexivity.
  - apply IH; [intros l' Hl'; apply H1; right; exact Hl'|].
    intros i j li lj a b Hi Hj Hij. apply (H2 (S i) (S j)); auto.
  - intros x Hx Hx'. apply in_map_iff in Hx. destruct Hx as (a & Ea & Ha).
    apply in_map_iff in Hx'. destruct Hx' as (b & Eb & Hb). apply in_concat in Hb.
    destruct Hb as (l' & Hl' & Hb). apply In_nth_error in Hl'. destruct Hl' as (j & Hj).
    apply (H2 0 (S j) l l' a b); auto. congruence.
Qed.

Lemma ranked_keys unit tables R : aligned d_datum tables -> ranked_of unit tables R -> NoDup (map pd_key R).
Proof.
  intros Ha H. apply (stable_sort_perm _ (row_leb_total _) (row_leb_trans _)) in H.
  apply (Permutation_NoDup (Permutation_map pd_key H)). apply NoDup_concat_map.
  - intros l Hl. apply in_map_iff in Hl. destruct Hl as (t & <- & _). apply rank_table_keys.
  - intros i j li lj a b Hi Hj Hij Hai Hbj E. apply Hij.
    rewrite nth_error_map in Hi, Hj.
    destruct (nth_error tables i) as [ti|] eqn:Ei; [|discriminate].
    destruct (nth_error tables j) as [tj|] eqn:Ej; [|discriminate].
    inversion Hi; subst li. inversion Hj; subst lj.
    destruct (rank_table_In unit ti a Hai) as (a0 & _ & Ea & Ha0).
    destruct (rank_table_In unit tj b Hbj) as (b0 & _ & Eb & Hb0).
    apply strip_fields in Ea. apply strip_fields in Eb.
    apply (Ha i j ti tj a0 b0 Ei Ej Ha0 Hb0).
    destruct Ea as (-> & _), Eb as (-> & _). unfold pd_key in E. inversion E. reflexivity.
Qed.

Lemma ranked_is_ok unit tables R :
  (0 <= unit)%Z -> ious_ok unit (List.concat tables) -> labels_small (List.concat tables) ->
  aligned d_datum tables -> ranked_of unit tables R -> ranked_ok R.
Proof.
  intros Hu Hi Hl Ha H. split.
  - apply H.
  - apply (ranked_keys unit tables R Ha H).
  - intros k Hk. destruct (ranked_gt_rows unit tables R k Ha H) as [E|(t & Ht & E)]; rewrite E.
    + intros l1 r l2 E'. destruct l1; discriminate.
    + apply rank_table_chain; auto. intros r Hr. apply Hi. apply in_concat. eauto.
  - intros r Hr. destruct (ranked_In unit tables R r H Hr) as (t & r0 & Ht & Hr0 & E & _).
    apply strip_fields in E. destruct E as (_ & _ & E1 & _ & E2 & _). rewrite <- E1, <- E2.
    apply Hl. apply in_concat. eauto.
Qed.

Lemma NoDup_map_filter {A K} (f : A -> K) (P : A -> bool) l : NoDup (map f l) -> NoDup (map f (filter P l)).
Proof.
  induction l as [|a t IH]; simpl; intros H; [constructor|]. inversion H as [|? ? Hn Hd]; subst.
  destruct (P a); simpl; [|apply IH; exact Hd]. constructor; [|apply IH; exact Hd].
  intros Hc. apply Hn. apply in_map_iff in Hc. destruct Hc as (b & E & Hb). apply filter_In in Hb.
  rewrite <- E. apply in_map. tauto.
Qed.

Lemma ranked_ok_filter datums R : by_datum datums -> ranked_ok R -> ranked_ok (filter datums R).
Proof.
  intros Hd [H1 H2 H3 H4]. split.
  - apply StronglySorted_filter; exact H1.
  - apply NoDup_map_filter; exact H2.
  - intros k Hk.
    assert (E : filter (gt_mask k) (filter datums R) = [] \/
                filter (gt_mask k) (filter datums R) = filter (gt_mask k) R).
    { rewrite filter_filter.
      destruct (filter (fun x => datums x && gt_mask k x) R) as [|x rest] eqn:E; [left; reflexivity|right].
      assert (Hx : In x (filter (fun x => datums x && gt_mask k x) R)) by (rewrite E; left; reflexivity).
      apply filter_In in Hx. destruct Hx as [_ Hx]. apply andb_true_iff in Hx. destruct Hx as [Hx1 Hx2].
      rewrite <- E. apply filter_ext. intros y. destruct (gt_mask k y) eqn:Ey; [|apply andb_false_r].
      apply gt_mask_spec in Hx2. apply gt_mask_spec in Ey.
      assert (datums y = datums x) as ->.
      { apply Hd. destruct Hx2 as [Hx2 _], Ey as [Ey _]. rewrite <- Hx2 in Ey. unfold gt_key in Ey. inversion Ey. reflexivity. }
      rewrite Hx1. reflexivity. }
    destruct E as [E|E]; rewrite E; [|apply H3; exact Hk].
    intros l1 r l2 E'. destruct l1; discriminate.
  - intros r Hr. apply filter_In in Hr. apply H4. tauto.
Qed.

(* ------------------------------------------------------------------ *)
(** * True positives *)

Lemma pairs_with_mask k r : pairs_with k r = gt_mask k r.
Proof.
  destruct k as [[d g] l]. unfold pairs_with, gt_mask, gt_key.
  destruct (zzz_dec (d_datum r, d_gt r, d_gl r) (d, g, l)) as [E|E].
  - inversion E. rewrite !Z.eqb_refl. simpl. apply Z.eqb_sym.
  - simpl. apply not_true_iff_false. intros H. apply E. rewrite !andb_true_iff, !Z.eqb_eq in H.
    destruct H as (((-> & ->) & ->) & _). reflexivity.
Qed.

Lemma find_ext {A} (P Q : A -> bool) l : (forall x, P x = Q x) -> find P l = find Q l.
Proof. intros H. induction l as [|a t IH]; simpl; [reflexivity|]. rewrite (H a), IH. reflexivity. Qed.

Lemma best_match_eq R k t : best_match R k t = find (fun r => gt_mask k r && (t <=? d_iou r)%Z) R.
Proof. apply find_ext. intros r. rewrite pairs_with_mask. reflexivity. Qed.

Lemma find_filter {A} (P Q : A -> bool) l : find (fun x => P x && Q x) l = find Q (filter P l).
Proof.
  induction l as [|a t IH]; simpl; [reflexivity|]. destruct (P a); simpl; [|exact IH].
  destruct (Q a); [reflexivity|exact IH].
Qed.

Lemma find_app {A} (P : A -> bool) l1 l2 :
  find P (l1 ++ l2) = match find P l1 with Some x => Some x | None => find P l2 end.
Proof. induction l1 as [|a t IH]; simpl; [reflexivity|]. destruct (P a); [reflexivity|exact IH]. Qed.

Lemma find_split {A} (P : A -> bool) l x : find P l = Some x ->
  exists l1 l2, l = l1 ++ x :: l2 /\ P x = true /\ forall y, In y l1 -> P y = false.
Proof.
  induction l as [|a t IH]; simpl; [discriminate|]. destruct (P a) eqn:E.
  - intros H; inversion H; subst. exists [], t. repeat split; auto. intros y [].
  - intros H. destruct (IH H) as (l1 & l2 & -> & Hx & Hn). exists (a :: l1), l2. repeat split; auto.
    intros y [<-|Hy]; auto.
Qed.

Lemma find_none_iff {A} (P : A -> bool) l : (forall y, In y l -> P y = false) -> find P l = None.
Proof.
  induction l as [|a t IH]; simpl; intros H; [reflexivity|]. rewrite (H a (or_introl eq_refl)).
  apply IH. auto.
Qed.

Section TruePositives.
  Variable eps : Z.
  Variable R : list drow.
  Hypothesis Hok : ranked_ok R.

  Lemma R_match r : In r R -> label_match r = (d_gl r =? d_pl r)%Z.
  Proof. intros H. destruct (ro_labels R Hok r H). apply label_match_small; assumption. Qed.

  Lemma hit_iff t r : (0 < t)%Z -> In r R ->
    gt_and_match r && iou_mask t r = true <-> (0 <= d_gt r)%Z /\ best_match R (gt_key r) t = Some r.
  Proof.
    intros Ht Hr. unfold gt_and_match, iou_mask. rewrite best_match_eq, find_filter.
    rewrite (R_match r Hr). rewrite !andb_true_iff, !Z.leb_le, Z.eqb_eq, Z.ltb_lt.
    assert (Hc : (0 <= d_gt r)%Z -> bound_chain (filter (gt_mask (gt_key r)) R))
      by (intros Hg; apply (ro_chain R Hok (gt_key r)); exact Hg).
    split.
    - intros [[Hg He] [Hi Hp]]. split; [exact Hg|].
      assert (Hin : In r (filter (gt_mask (gt_key r)) R)) by (apply filter_In; split; [exact Hr|apply gt_mask_spec; auto]).
      apply in_split in Hin. destruct Hin as (l1 & l2 & E).
      assert (Hl1 := proj1 (Hc Hg l1 r l2 E t Ht Hi) Hp).
      rewrite E, find_app.
      rewrite find_none_iff by (intros y Hy; specialize (Hl1 y Hy); lia).
      simpl. replace (t <=? d_iou r)%Z with true by lia. reflexivity.
    - intros [Hg Hf]. apply find_split in Hf. destruct Hf as (l1 & l2 & E & Hi & Hn).
      assert (Hin : In r (filter (gt_mask (gt_key r)) R)) by (rewrite E; apply in_elt).
      apply filter_In in Hin. destruct Hin as [_ Hm]. apply gt_mask_spec in Hm. destruct Hm as [_ Hm].
      apply Z.leb_le in Hi. split; [auto|]. split; [exact Hi|].
      apply (Hc Hg l1 r l2 E t Ht Hi). intros e He. specialize (Hn e He). lia.
  Qed.

  Lemma tp_inner_iff t s r : (0 < t)%Z -> In r R ->
    tp_inner eps t s r = true <->
    (0 <= d_gt r)%Z /\ best_match R (gt_key r) t = Some r /\ (eps < d_score r)%Z /\ (s <= d_score r)%Z.
  Proof.
    intros Ht Hr. unfold tp_inner, tp_outer. rewrite <- andb_assoc, <- andb_assoc, andb_assoc.
    rewrite andb_assoc. rewrite !andb_true_iff. assert (H := hit_iff t r Ht Hr). rewrite andb_true_iff in H.
    rewrite Z.ltb_lt, Z.leb_le. tauto.
  Qed.

  Lemma best_match_key k t b : best_match R k t = Some b -> In b R /\ gt_key b = k /\ d_gl b = d_pl b /\ (t <= d_iou b)%Z.
  Proof.
    intros H. rewrite best_match_eq in H. apply find_some in H. destruct H as [H1 H2]. apply andb_true_iff in H2. destruct H2 as [H2 H3].
    apply gt_mask_spec in H2. apply Z.leb_le in H3. tauto.
  Qed.

  Lemma R_NoDup : NoDup R.
  Proof. exact (NoDup_map_inv pd_key R (ro_keys R Hok)). Qed.

  Lemma tp_keys_NoDup t s : (0 < t)%Z -> NoDup (map gt_key (filter (tp_inner eps t s) R)).
  Proof.
    intros Ht. assert (Hn := NoDup_filter (tp_inner eps t s) R_NoDup).
    assert (Hin : forall x, In x (filter (tp_inner eps t s) R) -> In x R /\ best_match R (gt_key x) t = Some x).
    { intros x Hx. apply filter_In in Hx. destruct Hx as [Hx1 Hx2].
      apply (tp_inner_iff t s x Ht Hx1) in Hx2. tauto. }
    induction (filter (tp_inner eps t s) R) as [|a l IH]; simpl; [constructor|].
    inversion Hn as [|? ? Ha Hd]; subst. constructor; [|apply IH; auto using in_cons].
    intros Hc. apply in_map_iff in Hc. destruct Hc as (b & E & Hb). apply Ha.
    destruct (Hin a (or_introl eq_refl)) as [_ B1]. destruct (Hin b (or_intror Hb)) as [_ B2].
    rewrite E in B2. congruence.
  Qed.
End TruePositives.

(* ------------------------------------------------------------------ *)
(** * Counts *)

Lemma first_flags_all {A K} (dec : forall x y : K, {x = y} + {x <> y}) (key : A -> K) cand : forall l seen,
  NoDup (map key (filter cand l)) -> (forall a, In a l -> cand a = true -> ~ In (key a) seen) ->
  first_flags dec key cand seen l = map cand l.
Proof.
  induction l as [|a t IH]; intros seen Hn Hs; [reflexivity|].
  cbn [first_flags map]. cbn [filter] in Hn. destruct (cand a) eqn:Ea.
  - cbn [map] in Hn. inversion Hn as [|? ? Hna Hd]; subst.
    destruct (kmem dec (key a) seen) eqn:Em.
    { exfalso. apply kmem_In in Em. apply (Hs a); auto. left; reflexivity. }
    f_equal. apply IH; [exact Hd|]. intros b Hb Hcb [E|E].
    + apply Hna. rewrite E. apply in_map. apply filter_In. auto.
    + apply (Hs b); auto. right; exact Hb.
  - f_equal. apply IH; [exact Hn|]. intros b Hb. apply Hs. right; exact Hb.
Qed.

Lemma countb_combine_map {A} (f : A -> bool) (P : A * bool -> bool) l :
  countb P (combine l (map f l)) = countb (fun a => P (a, f a)) l.
Proof.
  unfold countb. induction l as [|a t IH]; simpl; [reflexivity|]. destruct (P (a, f a)); simpl; lia.
Qed.

Section CountsP.
  Variables (eps t s : Z).

  (* the row counts at this threshold pair at all *)
  Definition score_ok (r : drow) : bool := (eps <? d_score r)%Z && (s <=? d_score r)%Z.

  Lemma tp_fp_disjoint r : tp_inner eps t s r = true -> fp_inner eps t s r = false.
  Proof.
    unfold tp_inner, fp_inner, tp_outer, fp_outer.
    destruct (eps <? d_score r)%Z, (gt_and_match r), (iou_mask t r), (s <=? d_score r)%Z; simpl; congruence.
  Qed.
  Lemma tp_fp_cover r : score_ok r = tp_inner eps t s r || fp_inner eps t s r.
  Proof.
    unfold score_ok, tp_inner, fp_inner, tp_outer, fp_outer.
    destruct (eps <? d_score r)%Z, (gt_and_match r), (iou_mask t r), (s <=? d_score r)%Z; reflexivity.
  Qed.

  Lemma flags_sound {A K} dec (key : A -> K) cand : forall l seen a b,
    In (a, b) (combine l (first_flags dec key cand seen l)) -> b = true -> cand a = true.
  Proof.
    induction l as [|x u IH]; intros seen a b; [intros []|]. cbn [first_flags].
    destruct (cand x) eqn:Ex; [destruct (kmem dec (key x) seen)|]; cbn [combine]; intros [E|H] Hb;
      try (inversion E; subst; congruence); eapply IH; eauto.
  Qed.

  Lemma flags_length {A K} dec (key : A -> K) cand l : forall seen, List.length (first_flags dec key cand seen l) = List.length l.
  Proof.
    induction l as [|x u IH]; intros seen; [reflexivity|]. cbn [first_flags].
    destruct (cand x); [destruct (kmem dec (key x) seen)|]; simpl; rewrite IH; reflexivity.
  Qed.

  Lemma combine_countb_fst {A B} (P : A -> bool) : forall (l : list A) (m : list B), List.length l = List.length m ->
    countb (fun ab => P (fst ab)) (combine l m) = countb P l.
  Proof.
    unfold countb. induction l as [|a u IH]; intros [|b m] Hl; try discriminate; [reflexivity|].
    simpl. specialize (IH m ltac:(injection Hl; auto)). destruct (P a); simpl; lia.
  Qed.

  (* TP + FP, on any rows *)
  Lemma tp_plus_fp rows l :
    dc_tp (det_counts_at eps t s rows l) + dc_fp (det_counts_at eps t s rows l)
    = countb (fun r => score_ok r && (d_pl r =? l)%Z) rows.
  Proof.
    cbn [det_counts_at dc_tp dc_fp]. set (fl := tp_mask eps t s rows).
    assert (Hlen : List.length rows = List.length fl) by (symmetry; apply flags_length).
    rewrite <- (combine_countb_fst (fun r => score_ok r && (d_pl r =? l)%Z) rows fl Hlen).
    assert (Hs : forall a b, In (a, b) (combine rows fl) -> b = true -> tp_inner eps t s a = true) by apply flags_sound.
    unfold countb. induction (combine rows fl) as [|[a b] u IH]; [reflexivity|].
    assert (IH' := IH (fun x y H => Hs x y (or_intror H))). clear IH.
    assert (Ha := Hs a b (or_introl eq_refl)).
    cbn [filter fst snd]. rewrite (tp_fp_cover a). pose proof (tp_fp_disjoint a) as Hd.
    destruct (d_pl a =? l)%Z; rewrite ?andb_true_r, ?andb_false_r; [|exact IH'].
    destruct b, (tp_inner eps t s a), (fp_inner eps t s a); simpl in *; try (specialize (Ha eq_refl)); try (specialize (Hd eq_refl)); try discriminate; lia.
  Qed.
End CountsP.

Section CountsOk.
  Variables (eps t s : Z).
  Hypothesis Ht : (0 < t)%Z.

  Lemma mask_ok R : ranked_ok R -> tp_mask eps t s R = map (tp_inner eps t s) R.
  Proof. intros H. apply first_flags_all; [apply tp_keys_NoDup; assumption|intros a _ _ []]. Qed.

  (* sublists of a good ranked list (chunks of it) *)
  Lemma mask_ok_sub C : NoDup (map gt_key (filter (tp_inner eps t s) C)) ->
    tp_mask eps t s C = map (tp_inner eps t s) C.
  Proof. intros H. apply first_flags_all; [exact H|intros a _ _ []]. Qed.

  Lemma counts_simple C l : NoDup (map gt_key (filter (tp_inner eps t s) C)) ->
    det_counts_at eps t s C l =
    MkDC (countb (fun r => tp_inner eps t s r && (d_pl r =? l)%Z) C)
         (countb (fun r => fp_inner eps t s r && (d_pl r =? l)%Z) C).
  Proof.
    intros H. unfold det_counts_at. rewrite mask_ok_sub by exact H. rewrite !countb_combine_map.
    cbn [fst snd]. f_equal. apply countb_ext. intros r _.
    destruct (tp_inner eps t s r) eqn:E; simpl; [rewrite orb_false_r|rewrite orb_false_r]; reflexivity.
  Qed.

  Lemma NoDup_app_l {A} (l1 l2 : list A) : NoDup (l1 ++ l2) -> NoDup l1.
  Proof. induction l1 as [|a u IH]; simpl; intros H; [constructor|]. inversion H as [|? ? Hn Hd]; subst. constructor; [|auto]. intros Hc. apply Hn. apply in_app_iff. auto. Qed.
  Lemma NoDup_app_r {A} (l1 l2 : list A) : NoDup (l1 ++ l2) -> NoDup l2.
  Proof. induction l1 as [|a u IH]; simpl; intros H; [exact H|]. inversion H; auto. Qed.

  Lemma dc_add_assoc a b c : dc_add (dc_add a b) c = dc_add a (dc_add b c).
  Proof. destruct a, b, c. unfold dc_add. simpl. f_equal; lia. Qed.

  Lemma eval_counts_concat datums tables l :
    NoDup (map gt_key (filter (tp_inner eps t s) (filter datums (List.concat tables)))) ->
    eval_counts eps t s datums tables l = det_counts_at eps t s (filter datums (List.concat tables)) l.
  Proof.
    intros Hn. rewrite counts_simple by exact Hn. unfold eval_counts.
    assert (G : forall tbs acc, NoDup (map gt_key (filter (tp_inner eps t s) (filter datums (List.concat tbs)))) ->
      fold_left (fun acc tb => dc_add acc (det_counts_at eps t s (filter datums tb) l)) tbs acc
      = dc_add acc (MkDC (countb (fun r => tp_inner eps t s r && (d_pl r =? l)%Z) (filter datums (List.concat tbs)))
                         (countb (fun r => fp_inner eps t s r && (d_pl r =? l)%Z) (filter datums (List.concat tbs))))).
    { induction tbs as [|tb u IH]; intros acc Hnd.
      - cbn. unfold dc_add. cbn. rewrite !Nat.add_0_r. destruct acc; reflexivity.
      - cbn [fold_left]. cbn [List.concat] in Hnd |- *. rewrite !filter_app in *. rewrite map_app in Hnd.
        rewrite IH by (apply NoDup_app_r in Hnd; exact Hnd).
        rewrite counts_simple by (apply NoDup_app_l in Hnd; exact Hnd).
        rewrite dc_add_assoc. f_equal. unfold dc_add. cbn [dc_tp dc_fp]. rewrite !countb_app. reflexivity. }
    rewrite G by exact Hn. unfold dc_add. reflexivity.
  Qed.

  (* number of true positives = number of ground truths with a good best match *)
  Lemma tp_count_spec R l : ranked_ok R ->
    dc_tp (det_counts_at eps t s R l)
    = dcount zzz_dec gt_key (fun r => (0 <=? d_gt r)%Z && (d_gl r =? l)%Z && good_match eps t s R (gt_key r)) R.
  Proof.
    intros Hok. rewrite counts_simple by (apply tp_keys_NoDup; assumption). cbn [dc_tp].
    unfold dcount, countb.
    rewrite <- (map_length gt_key). apply Permutation_length. apply NoDup_Permutation.
    - assert (E : filter (fun r => tp_inner eps t s r && (d_pl r =? l)%Z) R
                = filter (fun r => (d_pl r =? l)%Z) (filter (tp_inner eps t s) R)) by (rewrite filter_filter; reflexivity).
      rewrite E. apply NoDup_map_filter. apply tp_keys_NoDup; assumption.
    - apply dkeys_NoDup.
    - intros k. rewrite dkeys_In, in_map_iff. split.
      + intros (r & <- & Hr). apply filter_In in Hr. destruct Hr as [Hr Hb].
        apply andb_true_iff in Hb. destruct Hb as [Hb Hl]. apply (tp_inner_iff eps R Hok t s r Ht Hr) in Hb.
        destruct Hb as (Hg & Hm & H1 & H2). exists r. split; [exact Hr|]. split; [|reflexivity].
        destruct (best_match_key R _ _ _ Hm) as (_ & _ & El & _).
        unfold good_match. rewrite Hm. rewrite El. lia.
      + intros (r & Hr & Hb & <-). rewrite !andb_true_iff in Hb. destruct Hb as [[Hg Hl] Hm].
        unfold good_match in Hm. destruct (best_match R (gt_key r) t) as [b|] eqn:Eb; [|discriminate].
        destruct (best_match_key R _ _ _ Eb) as (Hb & Ek & El & _).
        exists b. split; [exact Ek|]. apply filter_In. split; [exact Hb|].
        apply andb_true_iff. split.
        * apply (tp_inner_iff eps R Hok t s b Ht Hb). unfold gt_key in Ek. inversion Ek.
          rewrite <- Eb. unfold gt_key. repeat split; try lia. congruence.
        * unfold gt_key in Ek. inversion Ek. lia.
  Qed.
End CountsOk.

(* ------------------------------------------------------------------ *)
(** * Monotonicity *)

Lemma good_match_mono eps R t t' s s' k : StronglySorted (leP det_leb) R -> (t <= t')%Z -> (s <= s')%Z ->
  good_match eps t' s' R k = true -> good_match eps t s R k = true.
Proof.
  intros Hs Ht Hss. unfold good_match. rewrite !best_match_eq.
  destruct (find (fun r => gt_mask k r && (t' <=? d_iou r)%Z) R) as [b|] eqn:Eb; [|discriminate].
  intros Hb. apply find_split in Eb. destruct Eb as (l1 & l2 & E & Hm & _).
  destruct (find (fun r => gt_mask k r && (t <=? d_iou r)%Z) R) as [c|] eqn:Ec.
  - apply find_split in Ec. destruct Ec as (m1 & m2 & E' & Hc & Hn).
    (* c is at or before b *)
    assert (Hcb : c = b \/ det_leb c b = true).
    { rewrite E' in Hs. apply StronglySorted_app in Hs. destruct Hs as (_ & Hs & _). inversion Hs as [|? ? _ Hf]; subst.
      assert (Hin : In b (m1 ++ c :: m2)) by (rewrite <- E'; apply in_elt).
      apply in_app_iff in Hin. destruct Hin as [Hin|[Hin|Hin]].
      - specialize (Hn b Hin). exfalso. apply andb_true_iff in Hm. destruct Hm as [Hm1 Hm2]. rewrite Hm1 in Hn. simpl in Hn. lia.
      - auto.
      - right. rewrite Forall_forall in Hf. apply Hf. exact Hin. }
    destruct Hcb as [->|Hcb]; [lia|]. apply det_leb_spec in Hcb. lia.
  - exfalso. assert (Hb' := find_none _ _ Ec b). cbn beta in Hb'.
    rewrite E in Hb'. specialize (Hb' (in_elt _ _ _)).
    apply andb_true_iff in Hm. destruct Hm as [Hm1 Hm2]. rewrite Hm1 in Hb'. simpl in Hb'. lia.
Qed.

Lemma tp_mono eps t t' s s' R l : ranked_ok R -> (0 < t)%Z -> (t <= t')%Z -> (s <= s')%Z ->
  dc_tp (det_counts_at eps t' s' R l) <= dc_tp (det_counts_at eps t s R l).
Proof.
  intros Hok Ht Htt Hss. rewrite !tp_count_spec by (try assumption; lia).
  apply dcount_mono. intros r Hr. rewrite !andb_true_iff. intros [H1 H2]. split; [exact H1|].
  eapply good_match_mono; eauto. apply (ro_sorted R Hok).
Qed.

Lemma score_mono eps t t' s s' R l : (s <= s')%Z ->
  dc_tp (det_counts_at eps t' s' R l) + dc_fp (det_counts_at eps t' s' R l)
  <= dc_tp (det_counts_at eps t s R l) + dc_fp (det_counts_at eps t s R l).
Proof.
  intros Hs. rewrite !tp_plus_fp. apply countb_mono. intros r _. unfold score_ok. lia.
Qed.

(* ------------------------------------------------------------------ *)
(** * True positives are bounded by the number of ground truths *)

Lemma nth_error_concat_In {A} (ls : list (list A)) i l a : nth_error ls i = Some l -> In a l -> In a (List.concat ls).
Proof. intros H1 H2. apply in_concat. exists l. split; [apply (nth_error_In _ _ H1)|exact H2]. Qed.

Lemma det_gt_count_dcount datums tables l : aligned d_datum tables -> gts_in_one_datum (List.concat tables) ->
  det_gt_count datums tables l
  = dcount zz_dec (fun r => (d_gt r, d_gl r)) (fun r => (0 <=? d_gt r)%Z && (d_gl r =? l)%Z) (filter datums (List.concat tables)).
Proof.
  intros Ha Hg. unfold det_gt_count.
  rewrite (list_sum_nat_ext _ (fun tb => dcount zz_dec (fun r => (d_gt r, d_gl r)) (fun r => (0 <=? d_gt r)%Z && (d_gl r =? l)%Z) (filter datums tb)))
    by (intros tb _; apply (dkeys_countb zz_dec (fun r => (d_gt r, d_gl r)) (fun r => (0 <=? d_gt r)%Z) (fun k => (snd k =? l)%Z))).
  rewrite filter_concat. rewrite <- (map_map (filter datums)). symmetry. apply dcount_concat.
  intros i j li lj a b Hi Hj Hij Hai Hbj Pa Pb E. apply Hij.
  rewrite nth_error_map in Hi, Hj.
  destruct (nth_error tables i) as [ti|] eqn:Ei; [|discriminate].
  destruct (nth_error tables j) as [tj|] eqn:Ej; [|discriminate].
  inversion Hi; subst li. inversion Hj; subst lj. apply filter_In in Hai. apply filter_In in Hbj.
  apply (Ha i j ti tj a b Ei Ej); [tauto|tauto|]. inversion E.
  apply Hg; [eapply nth_error_concat_In; [exact Ei|tauto]|eapply nth_error_concat_In; [exact Ej|tauto]|lia|assumption].
Qed.

Lemma tp_le_gts eps unit t s datums tables R l :
  (0 < t)%Z -> ranked_ok R -> by_datum datums -> aligned d_datum tables -> gts_in_one_datum (List.concat tables) ->
  ranked_of unit tables R ->
  dc_tp (det_counts_at eps t s (filter datums R) l) <= det_gt_count datums tables l.
Proof.
  intros Ht Hok Hd Ha Hg HR. rewrite (det_gt_count_dcount datums tables l Ha Hg).
  rewrite tp_count_spec by (try assumption; apply ranked_ok_filter; assumption).
  (* project the keys to (gt, label) *)
  unfold dcount. rewrite <- (map_length (fun k : Z * Z * Z => (snd (fst k), snd k))).
  assert (Hsrc : forall r, In r (filter datums R) -> exists r0, In r0 (filter datums (List.concat tables)) /\ strip r0 = strip r).
  { intros r Hr. apply filter_In in Hr. destruct Hr as [Hr Hdr].
    destruct (ranked_In unit tables R r HR Hr) as (tb & r0 & Htb & Hr0 & E & _).
    exists r0. split; [|exact E]. apply filter_In. split; [apply in_concat; eauto|].
    rewrite <- Hdr. apply Hd. apply strip_fields in E. tauto. }
  apply NoDup_incl_length.
  - assert (Hn := dkeys_NoDup zzz_dec gt_key
       (fun r => (0 <=? d_gt r)%Z && (d_gl r =? l)%Z && good_match eps t s (filter datums R) (gt_key r)) (filter datums R)).
    assert (Hk : forall k, In k (dkeys zzz_dec gt_key (fun r => (0 <=? d_gt r)%Z && (d_gl r =? l)%Z && good_match eps t s (filter datums R) (gt_key r)) (filter datums R)) ->
               exists r0, In r0 (List.concat tables) /\ (0 <= d_gt r0)%Z /\ gt_key r0 = k).
    { intros k Hk. apply dkeys_In in Hk. destruct Hk as (a & Ha' & Hb & <-).
      destruct (Hsrc a Ha') as (r0 & Hr0 & E). apply filter_In in Hr0. apply strip_fields in E.
      destruct E as (E1 & E2 & E3 & _). exists r0. split; [tauto|].
      rewrite !andb_true_iff in Hb. split; [lia|]. unfold gt_key. congruence. }
    induction (dkeys _ _ _ _) as [|k ks IH]; simpl; [constructor|].
    inversion Hn as [|? ? Hnk Hnd]; subst. constructor; [|apply IH; auto using in_cons].
    intros Hc. apply in_map_iff in Hc. destruct Hc as (k' & E & Hk').
    apply Hnk. destruct (Hk k (or_introl eq_refl)) as (a & Ha1 & Ha2 & <-).
    destruct (Hk k' (or_intror Hk')) as (b & Hb1 & Hb2 & <-).
    assert (gt_key a = gt_key b) as ->; [|exact Hk'].
    unfold gt_key in *. cbn [fst snd] in E. inversion E.
    assert (d_datum a = d_datum b) by (apply Hg; auto). congruence.
  - intros k Hk. apply in_map_iff in Hk. destruct Hk as (k' & <- & Hk'). apply dkeys_In in Hk'.
    destruct Hk' as (a & Ha' & Hb & <-). destruct (Hsrc a Ha') as (r0 & Hr0 & E).
    apply strip_fields in E. destruct E as (E1 & E2 & E3 & _).
    apply dkeys_In. exists r0. rewrite !andb_true_iff in Hb. rewrite E2, E3. split; [exact Hr0|].
    split; [lia|reflexivity].
Qed.
